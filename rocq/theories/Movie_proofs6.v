(** Proofs about Movie_model: what the tables of a track say. *)
From Coq Require Import ZifyNat Permutation Sorted.
From Verif Require Import Util RangeMap_model SampleTab_model SampleTab_proofs TimeTab_model TimeTab_proofs TimeTab_proofs2 TimeTab_proofs3 TimeTab_proofs4 Double_model Double_proofs Box_model Box_proofs Frag_model Frag_proofs Level_model Movie_model Movie_proofs Movie_proofs2 Movie_proofs3 Movie_proofs4.
Local Open Scope Z_scope.
Local Ltac Zify.zify_post_hook ::= Z.div_mod_to_equations.
Opaque be.

Lemma places_back : forall t mdat, Forall (SampleTab_model.fits mdat) (k_places t) -> 0 <= mdat -> Z.of_nat (length (k_places t)) < 2 ^ 31 -> ~ all_same_size (k_places t) ->
  has_chunks t /\ exists stsc sizes stco, parse_stsc (skipn 2 (stsc_of t)) = Some (stsc, []) /\ parse_stsz (skipn 2 (the_stsz t)) = Some (0, Z.of_nat (length (k_places t)), sizes, []) /\ parse_stco (the_stco t mdat) = Some (stco, [])
  /\ forall i, (i < length (k_places t))%nat -> SampleTab_model.sample_offset (mkP stsc 0 (Z.of_nat (length (k_places t))) sizes stco) (Z.of_nat i) = Some (fst (nth i (k_places t) (0, 0)) + mdat) /\ SampleTab_model.sample_size (mkP stsc 0 (Z.of_nat (length (k_places t))) sizes stco) (Z.of_nat i) = Some (snd (nth i (k_places t) (0, 0))).
Proof.
  intros t mdat Fm M B NS. set (l := k_places t) in *. assert (N : l <> []) by (intros Q; apply NS; rewrite Q; intros ? ? []).
  assert (F0 : Forall (SampleTab_model.fits 0) l) by (eapply Forall_impl; [|exact Fm]; intros [q n] (A1 & A2 & A3); unfold SampleTab_model.fits; cbn [fst snd] in *; lia).
  destruct (tables_ok false mdat l Fm M B NS) as (ws & p & W & P & Pc & Q). destruct (write_all_spec l N F0) as (gs & G1 & G2 & G3 & G4 & G5 & G6).
  pose proof (groups_le gs G1) as Lg. rewrite <- G2 in Lg.
  assert (Fc : Forall (fun c => 0 < c < 2 ^ 32) (map snd (map ch_of gs))).
  { rewrite map_map. apply Forall_map. cbn [ch_of snd]. apply Forall_forall. intros g Hg. rewrite Forall_forall in G1. destruct (G1 g Hg) as [A _]. split; [destruct g; [congruence|cbn; lia]|].
    assert (length g <= length l)%nat. { rewrite G2. apply in_split in Hg. destruct Hg as (a & c & ->). rewrite concat_app. cbn [concat]. rewrite !app_length. lia. } lia. }
  assert (Nc : map snd (map ch_of gs) <> []) by (destruct gs; [congruence|discriminate]).
  destruct (write_stsc_spec (map snd (map ch_of gs)) false Nc Fc ltac:(rewrite !map_length; lia)) as (rs & R1 & R2 & R3 & rs' & R4).
  assert (R5 : Forall (fun r => 0 < snd r) rs).
  { apply Forall_forall. intros [n c] Hr. cbn [snd]. pose proof (proj1 (Forall_forall _ _) R3 _ Hr) as Hn. cbn [fst] in Hn. rewrite <- R2 in Fc. apply in_split in Hr. destruct Hr as (a & c' & E). rewrite E, expand_app, expand_cons in Fc.
    apply Forall_app in Fc. destruct Fc as [_ Fc]. destruct n; [lia|]. cbn [repeat app] in Fc. apply Forall_inv in Fc. lia. }
  assert (R2' : expand rs = map (fun g : list (Z * Z) => Z.of_nat (length g)) gs) by (rewrite R2, map_map; reflexivity).
  assert (Cr : chunks_of rs < 2 ^ 31) by (unfold chunks_of; rewrite R2', map_length; lia).
  assert (Zr : zsum (expand rs) < 2 ^ 32) by (rewrite R2, counts_sum, <- G2; lia).
  assert (Hh : w_has_size (SampleTab_model.write_all l) = true) by (destruct (w_has_size (SampleTab_model.write_all l)) eqn:E; [reflexivity|]; exfalso; apply NS, G6; reflexivity).
  assert (Ech : chunks t = map ch_of gs) by (unfold chunks; exact G4).
  assert (Est : write_stsc false (map snd (chunks t)) = Some (fullbox box_stsc (Z.of_nat (length rs) :: enc 1 rs))) by (rewrite Ech; exact R1).
  split; [unfold has_chunks; rewrite Est; discriminate|].
  assert (X1 : parse_stsc (skipn 2 (stsc_of t)) = Some (tab 1 0 rs, [])). { unfold stsc_of. rewrite Est. unfold fullbox. cbn [skipn]. pose proof (parse_stsc_spec rs [] _ rs' R4 R3 R5 Cr Zr) as Y. rewrite app_nil_r in Y. exact Y. }
  assert (Es : map u32 (map snd l) = map snd l). { rewrite map_map. apply map_ext_in. intros [q n] Hin. cbn [snd]. rewrite Forall_forall in F0. destruct (F0 _ Hin) as (A1 & A2 & A3). cbn [fst snd] in *. apply u32_id. lia. }
  assert (X2 : parse_stsz (skipn 2 (the_stsz t)) = Some (0, Z.of_nat (length l), map snd l, [])).
  { unfold the_stsz, write_stsz, fullbox. fold l. rewrite Hh, G5. cbn [skipn parse_stsz]. change (0 =? 0) with true. cbv iota. rewrite Es, map_length, u32_id by lia. rewrite <- (map_length snd l) at 1. rewrite <- (app_nil_r (map snd l)) at 2. rewrite take_app. reflexivity. }
  set (st := map (fun x => u32 (fst (ch_of x) + mdat)) gs).
  assert (X3 : parse_stco (the_stco t mdat) = Some (st, [])).
  { unfold the_stco. rewrite Ech. rewrite map_map, map_length, u32_id by lia. cbn [parse_stco]. fold st. rewrite <- (map_length (fun x => u32 (fst (ch_of x) + mdat)) gs). fold st. rewrite <- (app_nil_r st) at 2. apply take_app. }
  exists (tab 1 0 rs), (map snd l), st. split; [exact X1|]. split; [exact X2|]. split; [exact X3|].
  assert (Ep : p = mkP (tab 1 0 rs) 0 (Z.of_nat (length l)) (map snd l) st).
  { set (c := SampleTab_model.write_stco mdat (SampleTab_model.write_all l)).
    assert (Ec : c = u32 (12 + 4 * Z.of_nat (length (tl (the_stco t mdat)))) :: box_stco :: the_stco t mdat) by reflexivity.
    assert (Esz : the_stsz t = hd 0 (the_stsz t) :: box_stsz :: skipn 2 (the_stsz t)) by reflexivity.
    assert (Esc : stsc_of t = hd 0 (stsc_of t) :: box_stsc :: skipn 2 (stsc_of t)) by (unfold stsc_of; rewrite Est; reflexivity).
    assert (Ew : ws = stsc_of t ++ the_stsz t ++ c) by (unfold write_tables in W; rewrite G4, R1 in W; injection W as <-; unfold stsc_of; rewrite Est; reflexivity).
    assert (G : forall k, SampleTab_model.parse_boxes (S (S (S (S k)))) p_init (stsc_of t ++ the_stsz t ++ c) = Some (mkP (tab 1 0 rs) 0 (Z.of_nat (length l)) (map snd l) st)).
    { intros k. rewrite Esc. cbn [app]. rewrite pb_stsc, (steady_stsc _ _ _ _ X1), app_nil_l. rewrite Esz. cbn [app]. rewrite pb_stsz, (steady_stsz _ _ _ _ X2), app_nil_l. rewrite Ec, pb_stco, X3, pb_nil. reflexivity. }
    assert (Hf : exists k, length ws = S (S (S k))) by (exists (length ws - 3)%nat; rewrite Ew, !app_length, Ec; cbn [length]; unfold the_stco; cbn [length]; lia). destruct Hf as (k & Ek).
    unfold parse_tables in P. rewrite Ek, Ew, G in P. injection P as <-. reflexivity. }
  rewrite Ep in Q. exact Q.
Qed.

(** ** Times *)
Lemma times_back : forall t h, let ts := k_ts t in let l := l_samples (k_level t) in let off := l_ctts (k_level t) in
  0 < ts <= 2 ^ 32 -> h <= 2 ^ 53 -> ts * h <= 2 ^ 51 -> (2 <= length l)%nat -> Z.of_nat (length l) < 2 ^ 31 ->
  paced ts h 0 (map snd l) -> Forall (fun s => fit ts h (fst s - snd s + off)) l -> in_order ts l ->
  exists times table offs order, parse_stts (skipn 2 (the_stts t)) = Some (times, table, [])
  /\ (if match the_ctts t with [] => false | _ => true end then parse_ctts times (skipn 2 (the_ctts t)) = Some (offs, order, []) else offs = [] /\ order = [])
  /\ forall has order' keys i, (i < length l)%nat -> exists dt ct du, decoding_time (TimeTab_model.mkT times offs has order' table keys) (Z.of_nat i) = Some dt /\ composition_time (TimeTab_model.mkT times offs has order' table keys) (Z.of_nat i) = Some ct
     /\ duration_of (TimeTab_model.mkT times offs has order' table keys) (Z.of_nat i) = Some du /\ 0 <= dt /\ 0 <= ct /\ 0 <= du
     /\ (if (S i <? length l)%nat then decoding_time (TimeTab_model.mkT times offs has order' table keys) (Z.of_nat (S i)) = Some (dt + du) else duration_of (TimeTab_model.mkT times offs has order' table keys) (Z.of_nat (i - 1)) = Some du)
     /\ - (10000000 + ts) <= 10000000 * dt - ts * (snd (nth i l (0, 0)) - snd (nth 0 l (0, 0))) <= 10000000 + ts + ts * Z.of_nat i
     /\ - (20000000 + ts) <= 10000000 * ct - ts * (fst (nth i l (0, 0)) - snd (nth 0 l (0, 0)) + off) <= 10000000 + ts + ts * Z.of_nat i.
Proof.
  intros t h ts l off H1 H2 H3 L2 B F Fo Io. pose proof (double_conversion ts h H1 H2 H3) as C. set (scale := time_scale ts) in *. set (unscale := get_hnano ts) in *. unfold the_stts, the_ctts. fold ts l off scale unscale.
  destruct (read_decoding ts h scale unscale false (map snd l) C ltac:(rewrite map_length; exact L2) ltac:(rewrite map_length; exact B) F) as (times & tb & E1 & E2 & E3 & E4 & E5 & E6).
  destruct (decoding_accuracy ts h scale unscale false (map snd l) C ltac:(rewrite map_length; exact L2) ltac:(rewrite map_length; exact B) F) as (times' & tb' & A1 & A2 & A3 & A4 & A5).
  rewrite E1 in A1. injection A1 as <- <-. rewrite map_length in *. pose proof C as (C0 & C1 & _).
  assert (Sn : forall i, nth i (map snd l) 0 = snd (nth i l (0, 0))) by (intros i; apply (map_nth snd l (0, 0))).
  assert (Fi : forall i, (i < length l)%nat -> fit ts h (fst (nth i l (0, 0)) - snd (nth i l (0, 0)) + off)) by (intros i Hi; rewrite Forall_forall in Fo; apply (Fo (nth i l (0, 0))); apply nth_In; exact Hi).
  assert (Ft : Forall (fun d => 0 <= fst d < 2 ^ 63) times).
  { apply Forall_forall. intros d Hd. apply (In_nth _ _ (0, 0)) in Hd. destruct Hd as (i & Hi & <-). destruct (Nat.eq_dec i 0) as [->|Ni]; [rewrite E3; lia|]. rewrite E5 by lia.
    clearbody l. clear - F C C0 L2 B Hi E2. destruct l as [|[c0 d0] l]; [cbn in L2; lia|]. cbn [map snd nth skipn] in *. pose proof (near_next ts h scale unscale 0 0 d0 (map snd l) C (near_0 ts C0) F) as Q1. rewrite Z.sub_0_r, Z.add_0_l in *.
    pose proof (ticks_pos ts h scale unscale (map snd l) d0 (unscale (scale d0)) C Q1 (proj2 (proj2 F))) as P.
    pose proof (zsum_bound _ (Forall_firstn' _ i _ P)) as Q. rewrite firstn_length in Q. cbn [length] in *. nia. }
  assert (Nn : l <> []) by (intros Q; rewrite Q in L2; cbn in L2; lia).
  assert (Mono : forall i, (i < length l)%nat -> 0 <= fst (nth i times (0, 0))).
  { intros i Hi. rewrite Forall_forall in Ft. apply (Ft (nth i times (0, 0))). apply nth_In. lia. }
  assert (Dt : forall offs has order' keys i, (i < length l)%nat -> decoding_time (TimeTab_model.mkT times offs has order' tb keys) (Z.of_nat i) = Some (fst (nth i times (0, 0)))).
  { intros offs has order' keys i Hi. unfold decoding_time. rewrite (proj2 (Z.ltb_ge (Z.of_nat i) 0)) by lia. rewrite Nat2Z.id. cbn [t_times]. rewrite (nth_error_nth' times (0, 0)) by lia. reflexivity. }
  assert (Du : forall offs has order' keys i, (i < length l)%nat -> duration_of (TimeTab_model.mkT times offs has order' tb keys) (Z.of_nat i) = Some (snd (nth i times (0, 0)))).
  { intros offs has order' keys i Hi. unfold duration_of. rewrite (proj2 (Z.ltb_ge (Z.of_nat i) 0)) by lia. rewrite Nat2Z.id. cbn [t_times]. rewrite (nth_error_nth' times (0, 0)) by lia. reflexivity. }
  assert (Last : forall i, S i = length l -> snd (nth i times (0, 0)) = snd (nth (i - 1) times (0, 0))).
  { intros i Hi. replace i with (length l - 1)%nat by lia. rewrite E6. f_equal. f_equal. lia. }
  assert (Dn : forall i, (i < length l)%nat -> 0 <= snd (nth i times (0, 0))).
  { intros i Hi. destruct (Nat.ltb_spec (S i) (length l)) as [Q|Q]; [apply (E4 i Q)|]. rewrite (Last i) by lia. apply E4. lia. }
  assert (Chain : forall offs has order' keys i, (i < length l)%nat -> if (S i <? length l)%nat then decoding_time (TimeTab_model.mkT times offs has order' tb keys) (Z.of_nat (S i)) = Some (fst (nth i times (0, 0)) + snd (nth i times (0, 0))) else duration_of (TimeTab_model.mkT times offs has order' tb keys) (Z.of_nat (i - 1)) = Some (snd (nth i times (0, 0)))).
  { intros offs has order' keys i Hi. destruct (Nat.ltb_spec (S i) (length l)) as [Q|Q]; [rewrite Dt by exact Q; rewrite (proj1 (E4 i Q)); reflexivity|]. rewrite Du by lia. rewrite (Last i) by lia. reflexivity. }
  destruct (has_composition l || negb (off =? 0)) eqn:Hb.
  - assert (H : has_composition l = true \/ off <> 0) by (apply orb_prop in Hb; destruct Hb as [Hb|Hb]; [left; exact Hb|right; apply negb_true_iff, Z.eqb_neq in Hb; exact Hb]).
    assert (Tm : ctts_tame scale off l). { unfold ctts_tame. eapply Forall_impl; [|exact Fo]. intros s [Q1 Q2]. destruct (C1 _ Q1) as (R1 & R2). split; [lia|]. nia. }
    destruct (read_composition scale (has_composition l) off l times Nn B Tm H E2 Ft) as [R1 _].
    assert (W : exists w ws, write_ctts scale (has_composition l) off l = w :: ws). { unfold write_ctts. replace (negb (has_composition l) && (off =? 0)) with false; [|destruct H as [->|H]; [reflexivity|]; rewrite (proj2 (Z.eqb_neq off 0) H), andb_false_r; reflexivity]. destruct (ctts_loop scale off 0 l 0 0) as [[[? ?] ?] ?]. unfold fullbox. eexists _, _. reflexivity. }
    destruct W as (w & ws & W). set (comp := fun i => fst (nth i times (0, 0)) + scale (fst (nth i l (0, 0)) - snd (nth i l (0, 0)) + off)).
    assert (Bd : forall i, (i < length l)%nat -> - (20000000 + ts) <= 10000000 * comp i - ts * (fst (nth i l (0, 0)) - snd (nth 0 l (0, 0)) + off) <= 10000000 + ts + ts * Z.of_nat i).
    { intros i Hi. specialize (A5 i Hi). rewrite !Sn in A5. destruct (Fi i Hi) as [Q1 _]. destruct (C1 _ Q1) as (R3 & R4). unfold comp. lia. }
    destruct R1 as (ord & G1 & G2 & G3).
    { intros i Hi. destruct Io as [Io|Io].
      - unfold comp. rewrite (Io i Hi). rewrite E3. specialize (Mono i Hi). lia.
      - destruct (Nat.eq_dec i 0) as [->|Ni]; [lia|]. specialize (Io i ltac:(lia)). specialize (Bd i Hi). fold (comp 0%nat) (comp i). assert (Q0 : 10000000 * comp 0%nat <= ts * (fst (nth 0 l (0, 0)) - snd (nth 0 l (0, 0)) + off)). { unfold comp. rewrite E3. destruct (Fi 0%nat ltac:(lia)) as [Q1 _]. destruct (C1 _ Q1) as (R3 & R4). lia. } nia. }
    exists times, tb, (offsets scale off l), ord. split; [exact E1|]. split; [rewrite W; cbv iota; rewrite <- W; exact G1|].
    intros has order' keys i Hi. exists (fst (nth i times (0, 0))), (comp i), (snd (nth i times (0, 0))). split; [apply Dt; exact Hi|]. split; [|split; [apply Du; exact Hi|]; split; [apply Mono; exact Hi|]; split; [unfold comp; specialize (Mono i Hi); destruct (C1 _ (proj1 (Fi i Hi))) as (R3 & _); lia|]; split; [apply Dn; exact Hi|]; split; [apply Chain; exact Hi|]; split; [specialize (A5 i Hi); rewrite !Sn in A5; exact A5|exact (Bd i Hi)]].
    unfold composition_time. rewrite Dt by exact Hi. cbn [option_map t_offsets]. f_equal. rewrite Nat2Z.id. unfold comp. replace (nth i (offsets scale off l) 0) with (scale (fst (nth i l (0, 0)) - snd (nth i l (0, 0)) + off)).
    + apply u64_id. destruct (Fi i Hi) as [Q1 Q2]. destruct (C1 _ Q1) as (R3 & R4). rewrite Forall_forall in Ft. pose proof (Ft (nth i times (0, 0)) ltac:(apply nth_In; lia)) as Y. cbv beta in Y. split; [lia|]. assert (scale (fst (nth i l (0, 0)) - snd (nth i l (0, 0)) + off) < 2 ^ 32) by nia. lia.
    + unfold offsets. rewrite (nth_indep _ 0 ((fun s => scale (fst s - snd s + off)) (0, 0))) by (rewrite map_length; exact Hi). rewrite (map_nth (fun s => scale (fst s - snd s + off))). reflexivity.
  - apply orb_false_elim in Hb. destruct Hb as [Hb1 Hb2]. apply negb_false_iff, Z.eqb_eq in Hb2.
    assert (W : write_ctts scale (has_composition l) off l = []) by (unfold write_ctts; rewrite Hb1, Hb2; reflexivity).
    pose proof (proj1 (no_ctts scale off l) W) as (_ & Eq).
    exists times, tb, [], []. split; [exact E1|]. split; [rewrite W; split; reflexivity|]. intros has order' keys i Hi. exists (fst (nth i times (0, 0))), (fst (nth i times (0, 0))), (snd (nth i times (0, 0))). split; [apply Dt; exact Hi|].
    assert (Ei : fst (nth i l (0, 0)) = snd (nth i l (0, 0))) by (apply Eq; rewrite <- surjective_pairing; apply nth_In; exact Hi). specialize (A5 i Hi). rewrite !Sn in A5.
    split; [|split; [apply Du; exact Hi|]; split; [apply Mono; exact Hi|]; split; [apply Mono; exact Hi|]; split; [apply Dn; exact Hi|]; split; [apply Chain; exact Hi|]; split; [exact A5|rewrite Ei, Hb2; lia]]. unfold composition_time. rewrite Dt by exact Hi. cbn [option_map t_offsets]. f_equal. destruct (Z.to_nat (Z.of_nat i)); cbn [nth]; rewrite Z.add_0_r; apply u64_id; rewrite Forall_forall in Ft; pose proof (Ft (nth i times (0, 0)) ltac:(apply nth_In; lia)) as Y; cbv beta in Y; lia.
Qed.
(** ** Key frames *)
Lemma keys_back : forall t, Z.of_nat (length (k_keys t)) < 2 ^ 31 -> exists keys, match the_stss t with [] => keys = None | _ => exists m, keys = Some m /\ parse_stss (skipn 2 (the_stss t)) = Some (m, []) end
  /\ forall times o hc ord tb i, (i < length (k_keys t))%nat -> is_iframe (TimeTab_model.mkT times o hc ord tb keys) (Z.of_nat i) = Some (if visual (k_codec t) && existsb (fun b => b) (k_keys t) then nth i (k_keys t) false else true).
Proof.
  intros t B. unfold the_stss. destruct (visual (k_codec t)); [|exists None; split; reflexivity]. cbn [andb]. destruct (existsb (fun b => b) (k_keys t)) eqn:Ex.
  - destruct (key_frames_ok (k_keys t) B Ex) as (m & P & Q). exists (Some m). split; [|exact Q]. destruct (write_stss (iframes 0 (k_keys t))) as [|w ws] eqn:W; [|exists m; split; [reflexivity|exact P]].
    cbn in P. discriminate.
  - exists None. split; [|reflexivity]. assert (R : k_keys t = repeat false (length (k_keys t))). { clear - Ex. induction (k_keys t) as [|b l IH]; [reflexivity|]. cbn [existsb] in Ex. apply orb_false_elim in Ex. destruct Ex as [-> Ex]. cbn [length repeat]. f_equal. apply IH. exact Ex. }
    rewrite R, no_keys. reflexivity.
Qed.
