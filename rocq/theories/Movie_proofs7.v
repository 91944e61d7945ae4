(** Proofs about Movie_model: a movie written and read back. *)
From Coq Require Import ZifyNat Permutation.
From Verif Require Import Util RangeMap_model SampleTab_model SampleTab_proofs MuxQueue_model MuxQueue_proofs TimeTab_model TimeTab_proofs TimeTab_proofs2 TimeTab_proofs3 TimeTab_proofs4 Double_model Double_proofs Box_model Box_proofs Frag_model Frag_proofs Level_model Level_proofs Movie_model Movie_proofs Movie_proofs2 Movie_proofs3 Movie_proofs4 Movie_proofs5 Movie_proofs6.
From Verif Require Bits_spec Bitstream_model Sps_model Esds_model Sps_proofs2 Esds_proofs2.
Local Open Scope Z_scope.
Local Ltac Zify.zify_post_hook ::= Z.div_mod_to_equations.
Opaque be.

(** ** The offsets of a stream after levelling *)
Lemma level_parts : forall us l s0 s, starts_first s0 l -> Forall ready l -> In s l -> let s' := level_one us (first_dec s0) (max_ctts l) s in
  l_samples s' = l_samples s /\ l_ctts s <= l_ctts s' /\ 0 <= l_offset s' /\ l_ctts s' + l_offset s' = first_dec s - Z.min (first_dec s) (first_dec s0) + max_ctts l.
Proof.
  intros us l s0 s F R I s'. destruct (level_presented us l s0 s 0 F R I) as (P & E). fold s' in P, E. split; [exact E|].
  unfold presented in P. rewrite E in P. fold (first_dec s) in P. pose proof (max_ctts_from l 0) as (M1 & _ & M3). fold (max_ctts l) in M1, M3. specialize (M1 s I).
  destruct F as (I0 & F). rewrite Forall_forall in R. destruct (ready_cases s (R s I)) as (c & d & r & E1 & E2 & E3 & E4 & E5 & E6 & E7 & E8 & E9). destruct (ready_cases s0 (R s0 I0)) as (c0 & d0 & r0 & A1 & A2 & A3 & A4 & A5 & A6 & A7 & A8 & A9).
  assert (Hm : 0 <= max_ctts l < 2 ^ 62) by (destruct M3 as [->|(x & Ix & <-)]; [lia|]; destruct (R x Ix) as (_ & K & _); lia).
  cut ((l_ctts s' = l_ctts s /\ 0 <= l_offset s') \/ l_offset s' = 0); [intros [[Q1 Q2]|Q]; lia|].
  unfold s', level_one. set (o := if l_ctts s <? max_ctts l then _ else _). destruct (o =? 0); [right; exact E8|]. destruct us; [left|right]; cbn [l_ctts l_offset]; [|exact E8].
  split; [reflexivity|]. unfold o. destruct (l_ctts s <? max_ctts l); [unfold u64; lia|]. destruct (_ <? _); [unfold u64; lia|lia].
Qed.

(** ** One track *)
Lemma record_seen : forall b profile compat level size ss sv ps pv, avc_record b profile compat level size ss sv ps pv ->
  exists a rest, Sps_model.get_avcc (Bits_spec.bytes_bits b) = Bitstream_model.Ok (a, rest) /\ Sps_model.a_profile a = profile /\ Sps_model.a_compat a = compat /\ Sps_model.a_level a = level /\ Sps_model.get_nal_length_size a = size + 1
      /\ Sps_model.a_sps a = map Sps_model.read_as sv /\ Sps_model.a_pps a = pv
      /\ (forall u, ss = [u] -> Sps_model.get_sequence a = u) /\ (forall u, ps = [u] -> Sps_model.get_picture a = u).
Proof.
  intros b profile compat level size ss sv ps pv (B1 & B2 & B3 & R & L1 & L2 & F1 & F2 & more & ->). eexists _, _. split; [exact (Sps_proofs2.record_back profile compat level size ss sv ps pv more B1 B2 B3 R L1 L2 F1 F2)|].
  repeat (split; [reflexivity|]). split; intros u ->; unfold Sps_model.get_sequence, Sps_model.get_picture; cbn [Sps_model.a_sps_units Sps_model.a_pps_units hd fold_left]; unfold Sps_model.overlay; rewrite skipn_nil, app_nil_r, firstn_all; reflexivity.
Qed.
Lemma config_seen : forall b object rate chan, audio_config b object rate chan -> Esds_model.get_audio b = Bitstream_model.Ok (Esds_model.mkAac object rate chan).
Proof. intros b object rate chan (x & g & after & X & A & N & G & E & <- & F & C & ->). exact (Esds_proofs2.audio_read x g rate chan after X A N G E F C). Qed.
Lemma config_nonempty : forall b object rate chan, audio_config b object rate chan -> b <> [].
Proof. intros b object rate chan (x & g & after & _ & _ & _ & _ & _ & _ & _ & _ & ->). discriminate. Qed.
Lemma seen_same : forall c, codec_ok c -> same_entry c (seen_entry c).
Proof.
  intros [w h n b|r c b] H; cbn [codec_ok seen_entry same_entry] in *; unfold short in H.
  - destruct H as (H1 & H2 & _ & profile & compat & level & size & ss & sv & ps & pv & A). rewrite !Z.mod_small by lia. destruct (record_seen _ _ _ _ _ _ _ _ _ A) as (a & rest & E & _). exists a. rewrite E. split; [reflexivity|].
    intros profile' compat' level' size' ss' sv' ps' pv' A'. destruct (record_seen _ _ _ _ _ _ _ _ _ A') as (a' & rest' & E' & Q). rewrite E in E'. injection E' as <- <-. exact Q.
  - destruct H as (H1 & H2 & _). rewrite !Z.mod_small by lia. eexists. split; [reflexivity|]. split; [intros ->; reflexivity|]. intros o ra ch A. pose proof (config_nonempty _ _ _ _ A). rewrite (config_seen _ _ _ _ A). destruct b; [contradiction|reflexivity].
Qed.
Lemma codec_name : forall c, codec_ok c -> name_ok c.
Proof.
  intros [w h n b|r c b] H; cbn [codec_ok name_ok] in *.
  - destruct H as (_ & _ & N & profile & compat & level & size & ss & sv & ps & pv & A). split; [exact N|]. destruct (record_seen _ _ _ _ _ _ _ _ _ A) as (a & rest & E & _). eexists. exact E.
  - destruct H as (_ & _ & [->|(o & ra & ch & A)]); [left; reflexivity|right]. eexists. exact (config_seen _ _ _ _ A).
Qed.

Definition pair_of (x : MuxQueue_model.sample * Z) : Z * Z := (MuxQueue_model.s_comp (fst x), MuxQueue_model.s_dec (fst x)).
Definition triple_of (x : MuxQueue_model.sample * Z) : Z * Z * Z := (MuxQueue_model.s_comp (fst x), MuxQueue_model.s_dec (fst x), zlen (MuxQueue_model.s_body (fst x))).
Lemma hd_map : forall {A B} (f : A -> B) d d' l, l <> [] -> hd d (map f l) = f (hd d' l). Proof. intros A B f d d' [|a l] H; [contradiction|reflexivity]. Qed.
Lemma last_map : forall {A B} (f : A -> B) d d' l, l <> [] -> last (map f l) d = f (last l d').
Proof. intros A B f d d'. induction l as [|a l IH]; intros H; [contradiction|]. destruct l as [|b l]; [reflexivity|]. cbn [map] in *. change (last (f a :: f b :: map f l) d) with (last (f b :: map f l) d). rewrite IH by discriminate. reflexivity. Qed.

Lemma track_back : forall now g most st lev id mdat shift file, let t := with_level (track_of g st) lev in let w := MuxQueue_model.written st in
  setting_ok g -> samples_ok g most (map triple_of w) ->
  l_samples lev = map pair_of w -> g_ctts g <= l_ctts lev -> 0 <= l_offset lev -> l_ctts lev + l_offset lev <= first_dec lev + most -> shift = l_ctts lev + l_offset lev - first_dec lev ->
  0 <= id -> id + 1 < 2 ^ 32 -> 0 <= mdat -> Forall (SampleTab_model.fits mdat) (k_places t) ->
  (forall s p, In (s, p) w -> 0 <= p /\ firstn (length (MuxQueue_model.s_body s)) (skipn (Z.to_nat (p + mdat)) file) = MuxQueue_model.s_body s) ->
  zlen (layout (trak_item now mvts t id mdat)) < 2 ^ 32 ->
  exists r, track_ok now mvts mvts id mdat t r /\ shows file mdat g (id + 1) shift w r.
Proof.
  intros now g most st lev id mdat shift file t w Hg Hs El Ec Eo Em Esh Hid1 Hid2 Hm Ff Fb Hz.
  destruct Hg as (G1 & G2 & G3 & G4). destruct Hs as (S1 & S2 & (xa & xb & S3a & S3b & S3c) & S4 & S5 & S6 & S7 & h & S8 & S9 & S10 & S11).
  rewrite map_length in S1, S2. assert (Emp : map fst (map triple_of w) = map pair_of w) by (rewrite map_map; reflexivity). rewrite !Emp in *.
  assert (Nw : w <> []) by (intros Q; rewrite Q in S1; cbn in S1; lia).
  assert (Lp : length (k_places t) = length w) by (cbn [t with_level track_of k_places]; rewrite map_length; reflexivity).
  assert (Lk : length (k_keys t) = length w) by (cbn [t with_level track_of k_keys]; rewrite map_length; reflexivity).
  assert (Ns : ~ all_same_size (k_places t)).
  { intros Q. apply S3c. apply in_map_iff in S3a, S3b. destruct S3a as (ya & <- & Ia). destruct S3b as (yb & <- & Ib). cbn [triple_of snd].
    apply (Q (snd ya, zlen (MuxQueue_model.s_body (fst ya))) (snd yb, zlen (MuxQueue_model.s_body (fst yb)))); cbn [t with_level track_of k_places]; [exact (in_map (fun x => (snd x, zlen (MuxQueue_model.s_body (fst x)))) _ _ Ia)|exact (in_map (fun x => (snd x, zlen (MuxQueue_model.s_body (fst x)))) _ _ Ib)]. }
  destruct (places_back t mdat Ff Hm ltac:(lia) Ns) as (Hc & stsc & sizes & stco & P3 & P4 & P5 & Pl).
  assert (Kl : k_level t = lev) by reflexivity. assert (Kt : k_ts t = g_ts g) by reflexivity.
  assert (Fd : first_dec lev = snd (hd (0, 0) (map pair_of w))) by (unfold first_dec; rewrite El; reflexivity).
  destruct (times_back t h) as (times & table & offs & order & P1 & P2 & Pt); rewrite ?Kl, ?Kt, ?El; [lia|exact S8|exact S9|rewrite map_length; lia|rewrite map_length; lia|exact S10| |exact S7|].
  { eapply Forall_impl; [|exact S11]. intros s (Q1 & Q2 & Q3). unfold fit. assert (fst s - snd s + l_ctts lev <= fst s - snd s + snd (hd (0, 0) (map pair_of w)) + most) by lia. split; [lia|]. nia. }
  rewrite Kl, El in Pt.
  destruct (keys_back t ltac:(lia)) as (keys & P6 & Pk).
  pose proof (track_chain now mvts t id mdat mvts times table offs order keys stsc 0 (Z.of_nat (length (k_places t))) sizes stco Hc (codec_name _ G3) G4 P1 P2 P3 P4 P5 P6 Hz) as C.
  pose proof (segs_trak now mvts t id mdat) as Es.
  eexists. split. { eexists. split; [exact C|]. split; [exact Es|]. intros Q. rewrite Q in Es. cbn [concat] in Es. apply (f_equal zlen) in Es. unfold trak_item in Es. rewrite node_zlen in Es. pose proof (zlen_nonneg (all_layout (tkhd_item now mvts t id :: edts_items mvts t ++ [mdia_item now t mdat]))). change (zlen []) with 0 in Es. lia. }
  unfold shows, track_read. cbn [x_handler x_ts x_lang x_id x_entries x_tables x_width x_height x_duration x_track x_offset p_count]. cbv zeta.
  change (k_codec t) with (g_codec g). change (k_lang t) with (g_lang g). rewrite Kt, Kl.
  split; [unfold handler_of; destruct (g_codec g); reflexivity|]. split; [apply u32_id; lia|]. split; [reflexivity|]. split; [apply u32_id; lia|]. split; [eexists; split; [reflexivity|exact (seen_same _ G3)]|]. split; [rewrite Lp; reflexivity|].
  split. { destruct (g_codec g) as [x y nm bd|]; [|exact Logic.I]. cbn [codec_ok] in G3. unfold short in G3. cbn [width_of height_of]. rewrite !Z.mod_small by lia. split; reflexivity. }
  set (none := (MuxQueue_model.mkS 0 0 [] false, 0)) in *.
  split; [reflexivity|]. split. { destruct (l_offset lev =? 0); [lia|]. apply Z.mod_pos_bound. lia. }
  split.
  { intros D1 D2. assert (Ed : stream_duration lev = lasting w).
    { unfold stream_duration. rewrite El, (last_map pair_of (0, 0) none w Nw). unfold start_time. rewrite El. unfold lasting in *. fold none in D1, D2 |- *. cbn [pair_of fst]. rewrite <- (Z.mod_small (_ - MuxQueue_model.s_comp (fst (hd none w))) (2 ^ 64)).
      - unfold u64. destruct w as [|y w']; [contradiction|]. reflexivity.
      - nia. }
    rewrite Ed. destruct (double_conversion (g_ts g) (lasting w + 1) ltac:(lia) ltac:(nia) D2) as (_ & Cv & _). destruct (Cv (lasting w) ltac:(lia)) as (V1 & V2 & V3). rewrite u32_id; [lia|]. nia. }
  intros i s p Hi. assert (Li : (i < length w)%nat) by (apply nth_error_Some; congruence).
  pose proof (nth_error_In _ _ Hi) as Hin. destruct (Fb s p Hin) as (B1 & B2).
  assert (Np : nth i (k_places t) (0, 0) = (p, zlen (MuxQueue_model.s_body s))). { apply nth_error_nth. cbn [t with_level track_of k_places]. rewrite nth_error_map. fold w. rewrite Hi. reflexivity. }
  assert (Nt : nth i (map pair_of w) (0, 0) = (MuxQueue_model.s_comp s, MuxQueue_model.s_dec s)). { apply nth_error_nth. rewrite nth_error_map, Hi. reflexivity. }
  assert (N0 : nth 0 (map pair_of w) (0, 0) = pair_of (hd none w)). { destruct w as [|y w']; [contradiction|reflexivity]. }
  assert (Nk : nth i (k_keys t) false = s_key s). { apply nth_error_nth. cbn [t with_level track_of k_keys]. rewrite nth_error_map. fold w. rewrite Hi. reflexivity. }
  split; [|split].
  - destruct (Pl i ltac:(lia)) as (O1 & O2). rewrite Np in O1, O2. cbn [fst snd] in O1, O2. exists (p + mdat). split; [lia|]. split; [exact O1|]. split; [exact O2|]. split; [lia|exact B2].
  - destruct (Pt (match the_ctts t with [] => false | _ => true end) order keys i ltac:(rewrite map_length; exact Li)) as (dt & ct & du & T1 & T2 & U1 & U2 & U3 & U4 & U5 & T3 & T4). rewrite Nt, N0 in T3, T4. cbn [fst snd pair_of] in T3, T4. rewrite map_length in U5. exists dt, ct, du. split; [exact T1|]. split; [exact T2|]. split; [exact U1|]. split; [exact U2|]. split; [exact U3|]. split; [exact U4|]. split; [exact U5|]. split; [lia|].
    assert (Fd' : first_dec lev = MuxQueue_model.s_dec (fst (hd none w))) by (rewrite Fd, (hd_map pair_of (0, 0) none w Nw); reflexivity).
    assert (O : - 10000000 <= 10000000 * (if l_offset lev =? 0 then 0 else u32 (time_scale mvts (l_offset lev))) - 1000 * l_offset lev <= 0).
    { destruct (Z.eqb_spec (l_offset lev) 0) as [Z0|Z0]; [lia|]. destruct (double_conversion mvts (2 ^ 41) ltac:(unfold mvts; lia) ltac:(lia) ltac:(unfold mvts; lia)) as (_ & Cv & _). assert (l_offset lev < 2 ^ 41) by lia. destruct (Cv (l_offset lev) ltac:(lia)) as (V1 & V2). set (q := time_scale mvts (l_offset lev)) in *. change mvts with 1000 in V2. rewrite u32_id by lia. lia. }
    set (xo := if l_offset lev =? 0 then 0 else _) in *. rewrite Esh, Fd'. rewrite Kt in T4. nia.
  - rewrite Pk by lia. rewrite Nk. change (k_codec t) with (g_codec g). f_equal.
    assert (Ex : existsb (fun b => b) (k_keys t) = existsb (fun y => s_key (fst y)) w). { cbn [t with_level track_of k_keys]. fold w. clear. induction w as [|y l IH]; [reflexivity|]. cbn [map existsb]. rewrite IH. reflexivity. }
    rewrite Ex. destruct (g_codec g); reflexivity.
Qed.

(** ** All tracks *)
Lemma all_back : forall now mdat file (fl : setting * MuxQueue_model.stream -> wtrack) (sh : setting * MuxQueue_model.stream -> Z) xs id,
  (forall x i, In x xs -> 0 <= i -> i + 1 < 2 ^ 32 -> zlen (layout (trak_item now mvts (fl x) i mdat)) < 2 ^ 32 -> exists r, track_ok now mvts mvts i mdat (fl x) r /\ shows file mdat (fst x) (i + 1) (sh x) (MuxQueue_model.written (snd x)) r) ->
  0 <= id -> id + zlen (all_layout (traks now mvts (map fl xs) id mdat)) < 2 ^ 32 ->
  exists rs, all_ok now mvts mvts id mdat (map fl xs) rs /\ length rs = length xs
  /\ forall k x r, nth_error xs k = Some x -> nth_error rs k = Some r -> shows file mdat (fst x) (id + Z.of_nat k + 1) (sh x) (MuxQueue_model.written (snd x)) r.
Proof.
  intros now mdat file fl sh. induction xs as [|x xs IH]; intros id H Hid Hz.
  - exists []. split; [exact Logic.I|]. split; [reflexivity|]. intros [|k] x r Q; discriminate.
  - cbn [map traks] in Hz. rewrite all_layout_cons, zlen_app' in Hz. assert (L8 : 8 <= zlen (layout (trak_item now mvts (fl x) id mdat))) by (unfold trak_item; rewrite node_zlen; pose proof (zlen_nonneg (all_layout (tkhd_item now mvts (fl x) id :: edts_items mvts (fl x) ++ [mdia_item now (fl x) mdat]))); lia).
    pose proof (zlen_nonneg (all_layout (traks now mvts (map fl xs) (id + 1) mdat))) as Pn.
    destruct (IH (id + 1)) as (rs & A1 & A2 & A3); [intros y i Hy; apply H; right; exact Hy|lia|lia|].
    destruct (H x id (or_introl eq_refl) Hid ltac:(lia) ltac:(lia)) as (r & R1 & R2). exists (r :: rs). split; [split; assumption|]. split; [cbn [length]; lia|].
    intros [|k] y r' Q1 Q2; cbn [nth_error] in Q1, Q2.
    + injection Q1 as <-. injection Q2 as <-. replace (id + Z.of_nat 0 + 1) with (id + 1) by lia. exact R2.
    + replace (id + Z.of_nat (S k) + 1) with (id + 1 + Z.of_nat k + 1) by lia. apply (A3 k y r' Q1 Q2).
Qed.
Lemma laid_out_end : forall tr pos s p, laid_out pos tr -> In (s, p) tr -> p + zlen (MuxQueue_model.s_body s) <= pos + zlen (concat (map (fun x => MuxQueue_model.s_body (fst x)) tr)).
Proof.
  induction tr as [|[s0 p0] tr IH]; intros pos s p L HI; [destruct HI|]. cbn [laid_out] in L. destruct L as [-> L]. cbn [map concat fst]. rewrite zlen_app'. destruct HI as [E|HI].
  - injection E as -> <-. pose proof (zlen_nonneg (concat (map (fun x => MuxQueue_model.s_body (fst x)) tr))). lia.
  - specialize (IH _ s p L HI). unfold zlen in *. lia.
Qed.
Lemma combine_map : forall {A B C} (f : A -> B) (g : A -> B -> C) l, map (fun x => g (fst x) (snd x)) (combine l (map f l)) = map (fun a => g a (f a)) l.
Proof. intros A B C f g. induction l as [|a l IH]; [reflexivity|]. cbn [map combine fst snd]. rewrite IH. reflexivity. Qed.
Definition shorter (m : Z) (t : wtrack) : Z := let d := stream_duration (k_level t) in if d <? m then d else m.
Lemma min_from : forall l m0, (forall t, In t l -> fold_left shorter l m0 <= stream_duration (k_level t)) /\ fold_left shorter l m0 <= m0
  /\ (fold_left shorter l m0 = m0 \/ exists t, In t l /\ stream_duration (k_level t) = fold_left shorter l m0).
Proof.
  induction l as [|t l IH]; intros m0; cbn [fold_left]; [split; [intros ? []|]; split; [lia|left; reflexivity]|].
  set (m1 := shorter m0 t). assert (M : m1 <= m0 /\ m1 <= stream_duration (k_level t) /\ (m1 = m0 \/ m1 = stream_duration (k_level t))) by (unfold m1, shorter; destruct (Z.ltb_spec (stream_duration (k_level t)) m0); lia).
  destruct (IH m1) as (A & B & C). split; [intros x [<-|Hx]; [lia|apply A; exact Hx]|]. split; [lia|]. destruct C as [C|(x & Hx & C)]; [|right; exists x; split; [right; exact Hx|exact C]].
  rewrite C. destruct M as (_ & _ & [M|M]); [left; exact M|right; exists t; split; [left; reflexivity|symmetry; exact M]].
Qed.
Lemma min_is : forall l d, l <> [] -> (exists t, In t l /\ stream_duration (k_level t) = d) -> (forall t, In t l -> d <= stream_duration (k_level t)) -> d < U64MAX -> min_duration l = d.
Proof.
  intros l d N (t & I1 & E) A B. change (min_duration l) with (fold_left shorter l U64MAX). destruct (min_from l U64MAX) as (M1 & M2 & M3). specialize (M1 t I1). rewrite E in M1. destruct M3 as [M3|(x & Hx & M3)]; [lia|]. specialize (A x Hx). lia.
Qed.

Lemma movie_read_back : forall uc dist inc n h m now ctts gs most, let none := (MuxQueue_model.mkS 0 0 [] false, 0) in
  after uc dist inc n h m -> length gs = n -> (0 < n)%nat ->
  (forall k g, nth_error gs k = Some g -> setting_ok g /\ g_ctts g <= most /\ samples_ok g most (map triple_of (MuxQueue_model.written (nth k (m_streams m) stream0)))) ->
  zlen (m_file m) < 2 ^ 32 ->
  exists file, movie_file now ctts gs m = Some file /\ (zlen file < 2 ^ 32 ->
    exists mv j big, read_movie file = Some mv /\ length (v_streams mv) = n /\ v_ts mv = 1000 /\ v_end mv = zlen file /\ 0 <= v_mdat mv /\ v_mdat mv + 8 + zlen (m_file m) = v_end mv /\ firstn (length (m_file m)) (skipn (Z.to_nat (v_mdat mv + 8)) file) = m_file m
    /\ (forall k, (k < n)%nat -> let len i := lasting (MuxQueue_model.written (nth i (m_streams m) stream0)) in 0 <= len k -> (forall i, (i < n)%nat -> len k <= len i < 2 ^ 64) -> 1000 * (len k + 1) <= 2 ^ 51 -> 10000000 * v_duration mv <= 1000 * len k <= 10000000 * (v_duration mv + 1))
    /\ (j < n)%nat /\ (forall k, (k < n)%nat -> MuxQueue_model.s_comp (fst (hd none (MuxQueue_model.written (nth j (m_streams m) stream0)))) <= MuxQueue_model.s_comp (fst (hd none (MuxQueue_model.written (nth k (m_streams m) stream0)))))
    /\ In big (map g_ctts gs) /\ (forall g, In g gs -> g_ctts g <= big)
    /\ forall k g x, nth_error gs k = Some g -> nth_error (v_streams mv) k = Some x ->
       shows file (v_mdat mv + 8) g (Z.of_nat k + 1) (big - Z.min (MuxQueue_model.s_dec (fst (hd none (MuxQueue_model.written (nth k (m_streams m) stream0))))) (MuxQueue_model.s_dec (fst (hd none (MuxQueue_model.written (nth j (m_streams m) stream0)))))) (MuxQueue_model.written (nth k (m_streams m) stream0)) x).
Proof.
  intros uc dist inc n h m now ctts gs most none A Lg Hn Hs Hb.
  destruct (after_kept _ _ _ _ _ _ A) as (Ls & _ & tr & Ptr & Ltr & Efile). set (ss := m_streams m) in *. set (xs := combine gs ss).
  assert (Lx : length xs = n) by (unfold xs; rewrite combine_length; lia).
  assert (Nx : forall k g, nth_error gs k = Some g -> nth_error xs k = Some (g, nth k ss stream0)).
  { assert (G : forall (a : list setting) (b : list MuxQueue_model.stream) k g, length a = length b -> nth_error a k = Some g -> nth_error (combine a b) k = Some (g, nth k b stream0)).
    { induction a as [|u a IH]; intros [|v b] [|k] g L Q; cbn [length nth_error] in *; try discriminate; [injection Q as <-; reflexivity|]. cbn [combine nth_error nth]. apply IH; [lia|exact Q]. }
    intros k g Q. apply G; [lia|exact Q]. }
  assert (Nx' : forall x, In x xs -> exists k, (k < n)%nat /\ nth_error gs k = Some (fst x) /\ snd x = nth k ss stream0).
  { intros x Hx. apply In_nth_error in Hx. destruct Hx as (k & Hk). assert (K : (k < n)%nat) by (rewrite <- Lx; apply nth_error_Some; congruence). destruct (nth_error gs k) as [g|] eqn:E; [|apply nth_error_None in E; lia]. rewrite (Nx k g E) in Hk. injection Hk as <-. exists k. split; [exact K|]. split; [exact E|reflexivity]. }
  set (fl0 := fun x : setting * MuxQueue_model.stream => track_of (fst x) (snd x)). set (ts := map fl0 xs).
  assert (Rd : Forall ready (map k_level ts)).
  { apply Forall_forall. intros s Hin. unfold ts in Hin. rewrite map_map in Hin. apply in_map_iff in Hin. destruct Hin as (x & <- & Hx). destruct (Nx' x Hx) as (k & Hk & Eg & Es). destruct (Hs k _ Eg) as ((_ & G2 & _) & _ & S1 & _ & _ & S4 & S5 & _). rewrite <- Es in *.
    unfold fl0, track_of, ready. cbn [k_level l_offset l_ctts l_samples]. split; [reflexivity|]. split; [exact G2|]. destruct (MuxQueue_model.written (snd x)) as [|y w]; [cbn in S1; lia|]. cbn in S4, S5 |- *. split; [exact S4|exact S5]. }
  assert (Nts : map k_level ts <> []) by (intros Q; apply (f_equal (@length _)) in Q; unfold ts in Q; rewrite !map_length in Q; cbn in Q; lia).
  destruct (level_some (negb ctts) (map k_level ts) Nts Rd) as (s0 & F0 & G0 & Lv). set (big := max_ctts (map k_level ts)) in *. set (f := level_one (negb ctts) (first_dec s0) big) in *.
  set (fl := fun x => with_level (fl0 x) (f (k_level (fl0 x)))).
  assert (El : levelled ctts ts = Some (map fl xs)).
  { unfold levelled. rewrite Lv. f_equal. rewrite map_map. rewrite (combine_map (fun t => f (k_level t)) with_level). unfold ts. rewrite map_map. reflexivity. }
  (* places *)
  assert (Pb : forall x s p, In x xs -> In (s, p) (MuxQueue_model.written (snd x)) -> 0 <= p /\ p + zlen (MuxQueue_model.s_body s) <= zlen (m_file m) /\ firstn (length (MuxQueue_model.s_body s)) (skipn (Z.to_nat p) (m_file m)) = MuxQueue_model.s_body s).
  { intros x s p Hx Hp. destruct (Nx' x Hx) as (k & Hk & _ & Es). rewrite Es in Hp. destruct (after_bytes _ _ _ _ _ _ k s p A Hp) as (B1 & B2). split; [exact B1|]. split; [|exact B2].
    rewrite Efile. rewrite <- (Z.add_0_l (zlen (concat _))). apply laid_out_end; [exact Ltr|]. apply (Permutation_in _ (Permutation_sym Ptr)). apply in_concat. exists (MuxQueue_model.written (nth k ss stream0)). split; [|exact Hp]. apply in_map. apply nth_In. lia. }
  assert (Fit : forall x mdat, In x xs -> 0 <= mdat -> zlen (m_file m) + mdat < 2 ^ 32 -> Forall (SampleTab_model.fits mdat) (k_places (fl x))).
  { intros x mdat Hx M1 M2. unfold fl, fl0. cbn [with_level track_of k_places]. apply Forall_map, Forall_forall. intros [s p] Hp. destruct (Pb x s p Hx Hp) as (B1 & B2 & _). unfold SampleTab_model.fits. cbn [fst snd]. pose proof (zlen_nonneg (MuxQueue_model.s_body s)). lia. }
  assert (Ch : Forall has_chunks (map fl xs)).
  { apply Forall_map, Forall_forall. intros x Hx. destruct (Nx' x Hx) as (k & Hk & Eg & Es). destruct (Hs k _ Eg) as (_ & _ & S1 & S2 & (xa & xb & S3a & S3b & S3c) & _). rewrite <- Es in *. rewrite map_length in S1, S2.
    apply (places_back (fl x) 0); [apply Fit; [exact Hx|lia|lia]|lia|unfold fl, fl0; cbn [with_level track_of k_places]; rewrite map_length; exact S2|].
    intros Q. apply S3c. apply in_map_iff in S3a, S3b. destruct S3a as (ya & <- & Ia). destruct S3b as (yb & <- & Ib). cbn [triple_of snd].
    apply (Q (snd ya, zlen (MuxQueue_model.s_body (fst ya))) (snd yb, zlen (MuxQueue_model.s_body (fst yb)))); unfold fl, fl0; cbn [with_level track_of k_places]; [exact (in_map (fun x => (snd x, zlen (MuxQueue_model.s_body (fst x)))) _ _ Ia)|exact (in_map (fun x => (snd x, zlen (MuxQueue_model.s_body (fst x)))) _ _ Ib)]. }
  unfold movie_file. fold ss xs. fold fl0. fold ts. rewrite (finish_u now ctts ts (m_file m) _ El Ch). eexists. split; [reflexivity|].
  set (L := map fl xs) in *. set (mdat := headers now L). set (body := m_file m) in *. intros Hz.
  assert (Hd0 : forall a b, zlen (all_u (movie_items now L a)) = zlen (all_u (movie_items now L b))) by (intros a b; unfold movie_items; rewrite !all_u_cons, !all_u_nil, !zlen_app', (moov_zlen now L a b); reflexivity).
  assert (Hd : zlen (all_u (movie_items now L mdat)) + 8 = mdat) by (rewrite (Hd0 mdat 0); reflexivity).
  rewrite !zlen_app', !be32_zlen in Hz. pose proof (zlen_nonneg body) as Pbody. pose proof (zlen_nonneg (all_u (movie_items now L mdat))) as Pall.
  rewrite u32_id by lia. assert (Eu : all_u (movie_items now L mdat) = all_layout (movie_items now L mdat)) by (apply all_u_small; lia). rewrite Eu in *.
  set (pre := all_layout (movie_items now L mdat) ++ be32 (zlen body + 8) ++ be32 MDAT). 
  assert (Zpre : zlen pre = mdat) by (unfold pre; rewrite !zlen_app', !be32_zlen; lia).
  set (file := all_layout (movie_items now L mdat) ++ be32 (zlen body + 8) ++ be32 MDAT ++ body). assert (Epre : file = pre ++ body) by (unfold file, pre; rewrite <- !app_assoc; reflexivity).
  assert (Zf : zlen file = mdat + zlen body) by (rewrite Epre, zlen_app'; lia).
  assert (Skip : forall p, 0 <= p -> skipn (Z.to_nat (p + mdat)) file = skipn (Z.to_nat p) body).
  { intros p Hp. rewrite Epre, skipn_app. replace (Z.to_nat (p + mdat) - length pre)%nat with (Z.to_nat p) by (unfold zlen in *; lia). rewrite skipn_all2 by (unfold zlen in *; lia). reflexivity. }
  (* levels *)
  assert (Fw : forall k g, nth_error gs k = Some g -> exists y r, MuxQueue_model.written (nth k ss stream0) = y :: r). { intros k g Q. destruct (Hs k g Q) as (_ & _ & S1 & _). destruct (MuxQueue_model.written (nth k ss stream0)) as [|y r]; [cbn in S1; lia|]. exists y, r. reflexivity. }
  assert (J : exists j, (j < n)%nat /\ s0 = k_level (track_of (nth j gs (mkG (Audio 0 0 []) 0 (0, 0, 0) 0)) (nth j ss stream0))).
  { destruct F0 as (I0 & _). unfold ts in I0. rewrite map_map in I0. apply in_map_iff in I0. destruct I0 as (x & <- & Hx). destruct (Nx' x Hx) as (k & Hk & Eg & Es). exists k. split; [exact Hk|]. rewrite (nth_error_nth _ _ _ Eg), <- Es. reflexivity. }
  destruct J as (j & Hj & Es0).
  assert (Hdec : forall g st, MuxQueue_model.written st <> [] -> first_dec (k_level (track_of g st)) = MuxQueue_model.s_dec (fst (hd none (MuxQueue_model.written st))) /\ first_comp (k_level (track_of g st)) = MuxQueue_model.s_comp (fst (hd none (MuxQueue_model.written st)))).
  { intros g st N. unfold first_dec, first_comp, track_of. cbn [k_level l_samples]. destruct (MuxQueue_model.written st) as [|y r]; [contradiction|]. split; reflexivity. }
  assert (Gk : forall k, (k < n)%nat -> exists g, nth_error gs k = Some g). { intros k Hk. destruct (nth_error gs k) as [g|] eqn:E; [exists g; reflexivity|apply nth_error_None in E; lia]. }
  assert (Nw : forall k, (k < n)%nat -> MuxQueue_model.written (nth k ss stream0) <> []) by (intros k Hk; destruct (Gk k Hk) as (g & Eg); destruct (Fw k g Eg) as (y & r & ->); discriminate).
  assert (D0 : first_dec s0 = MuxQueue_model.s_dec (fst (hd none (MuxQueue_model.written (nth j ss stream0))))) by (rewrite Es0; apply (Hdec _ _ (Nw j Hj))).
  assert (Inlev : forall x, In x xs -> In (k_level (fl0 x)) (map k_level ts)) by (intros x Hx; unfold ts; rewrite map_map; exact (in_map (fun x => k_level (fl0 x)) _ _ Hx)).
  assert (Big : big <= most). { destruct G0 as ((s & Is & <-) & _). unfold ts in Is. rewrite map_map in Is. apply in_map_iff in Is. destruct Is as (x & <- & Hx). destruct (Nx' x Hx) as (k & _ & Eg & _). destruct (Hs k _ Eg) as (_ & Q & _). exact Q. }
  set (sh := fun x : setting * MuxQueue_model.stream => big - Z.min (MuxQueue_model.s_dec (fst (hd none (MuxQueue_model.written (snd x))))) (MuxQueue_model.s_dec (fst (hd none (MuxQueue_model.written (nth j ss stream0)))))).
  assert (Lz : zlen (all_layout (traks now mvts L 0 mdat)) < 2 ^ 32).
  { unfold movie_items, moov_item in Hz. rewrite !all_layout_cons, !zlen_app', node_zlen, all_layout_cons, zlen_app' in Hz. change (zlen (all_layout [])) with 0 in Hz. pose proof (zlen_nonneg (layout (Leaf FTYP ftyp_body))). pose proof (zlen_nonneg (layout (mvhd_item now L))). lia. }
  destruct (all_back now mdat file fl sh xs 0) as (rs & R1 & R2 & R3); [|lia|fold L; lia|].
  { intros x i Hx Hi1 Hi2 Hl. destruct (Nx' x Hx) as (k & Hk & Eg & Es). destruct (Hs k _ Eg) as (Q1 & Q2 & Q3). rewrite <- Es in Q3.
    destruct (level_parts (negb ctts) (map k_level ts) s0 (k_level (fl0 x)) F0 Rd (Inlev x Hx)) as (V1 & V2 & V3 & V4). fold big f in V1, V2, V3, V4.
    destruct (Hdec (fst x) (snd x) ltac:(rewrite Es; apply Nw; exact Hk)) as (Hd1 & _). change (track_of (fst x) (snd x)) with (fl0 x) in Hd1.
    assert (Fd : first_dec (f (k_level (fl0 x))) = first_dec (k_level (fl0 x))) by (unfold first_dec at 1; rewrite V1; reflexivity).
    assert (Rx : ready (k_level (fl0 x))) by (rewrite Forall_forall in Rd; apply Rd; apply Inlev; exact Hx).
    assert (R0 : ready s0) by (rewrite Forall_forall in Rd; apply Rd; apply F0).
    destruct (ready_cases _ Rx) as (? & ? & ? & _ & X2 & _ & _ & _ & _ & X7 & _). destruct (ready_cases _ R0) as (? & ? & ? & _ & Y2 & _ & _ & _ & _ & Y7 & _).
    apply (track_back now (fst x) most (snd x) (f (k_level (fl0 x))) i mdat (sh x) file); [exact Q1|exact Q3|rewrite V1; reflexivity|exact V2|exact V3|lia| |exact Hi1|exact Hi2|lia|apply (Fit x mdat Hx); lia| |exact Hl].
    - unfold sh. rewrite Fd, V4, Hd1, D0. lia.
    - intros s p Hp. destruct (Pb x s p Hx Hp) as (B1 & B2 & B3). split; [exact B1|]. rewrite Skip by exact B1. exact B3. }
  assert (Hzf : zlen file < 2 ^ 32) by lia.
  pose proof (movie_back now L mdat body rs Hzf R1) as Rm. fold file in Rm.
  eexists _, j, big. split; [exact Rm|]. cbn [v_streams v_ts v_end v_mdat v_duration]. split; [lia|]. split; [reflexivity|]. split; [reflexivity|]. split; [lia|]. split; [lia|].
  split. { replace (zlen file - 8 - zlen body + 8) with (0 + mdat) by lia. rewrite Skip by lia. change (Z.to_nat 0) with 0%nat. cbn [skipn]. apply firstn_all. }
  split.
  { intros k Hk. set (len := fun i => lasting (MuxQueue_model.written (nth i ss stream0))). intros D1 D2 D3. change (0 <= len k) in D1. change (forall i, (i < n)%nat -> len k <= len i < 2 ^ 64) in D2. change (1000 * (len k + 1) <= 2 ^ 51) in D3. change (lasting (MuxQueue_model.written (nth k ss stream0))) with (len k).
    assert (Ed : forall i x, nth_error xs i = Some x -> (i < n)%nat -> 0 <= len i < 2 ^ 64 -> stream_duration (k_level (fl x)) = len i).
    { intros i x Hx Hi Hl. destruct (Gk i Hi) as (g & Eg). rewrite (Nx i g Eg) in Hx. injection Hx as <-. destruct (Fw i g Eg) as (y & r & Ew).
      assert (V : l_samples (k_level (fl (g, nth i ss stream0))) = map pair_of (MuxQueue_model.written (nth i ss stream0))).
      { destruct (level_parts (negb ctts) (map k_level ts) s0 (k_level (fl0 (g, nth i ss stream0))) F0 Rd (Inlev _ (nth_error_In _ _ (Nx i g Eg)))) as (V1 & _). fold big f in V1. unfold fl. cbn [with_level k_level]. rewrite V1. reflexivity. }
      unfold stream_duration, start_time. rewrite V. rewrite (last_map pair_of (0, 0) none (MuxQueue_model.written (nth i ss stream0)) ltac:(rewrite Ew; discriminate)). unfold len, lasting in Hl |- *. fold none in Hl |- *. rewrite Ew in Hl |- *. cbn [map pair_of fst hd] in Hl |- *. unfold u64. apply Z.mod_small. exact Hl. }
    assert (Em : min_duration L = len k).
    { apply min_is; [unfold L; intros Q; apply (f_equal (@length _)) in Q; rewrite map_length in Q; cbn in Q; lia| | |unfold U64MAX; lia].
      - destruct (Gk k Hk) as (g & Eg). exists (fl (g, nth k ss stream0)). split; [apply in_map; exact (nth_error_In _ _ (Nx k g Eg))|]. apply (Ed k _ (Nx k g Eg) Hk). specialize (D2 k Hk). lia.
      - intros t Ht. unfold L in Ht. apply in_map_iff in Ht. destruct Ht as (x & <- & Hx). apply In_nth_error in Hx. destruct Hx as (i & Hi). assert (Li : (i < n)%nat) by (rewrite <- Lx; apply nth_error_Some; congruence). specialize (D2 i Li). rewrite (Ed i x Hi Li) by lia. lia. }
    rewrite Em. destruct (double_conversion mvts (len k + 1) ltac:(unfold mvts; lia) ltac:(lia) ltac:(unfold mvts; lia)) as (_ & Cv & _). destruct (Cv (len k) ltac:(lia)) as (V1 & V2). set (q := time_scale mvts (len k)) in *. change mvts with 1000 in V2. rewrite u32_id by lia. lia. }
  split; [exact Hj|]. split.
  { intros k Hk. destruct (Gk k Hk) as (g & Eg). destruct F0 as (_ & F1). specialize (F1 _ (Inlev _ (nth_error_In _ _ (Nx k g Eg)))). rewrite Es0 in F1. rewrite (proj2 (Hdec _ _ (Nw j Hj))) in F1. unfold fl0 in F1. cbn [fst snd] in F1. rewrite (proj2 (Hdec _ _ (Nw k Hk))) in F1. exact F1. }
  assert (Gin : forall s, In s (map k_level ts) -> In (l_ctts s) (map g_ctts gs)). { intros s Is. unfold ts in Is. rewrite map_map in Is. apply in_map_iff in Is. destruct Is as (x & <- & Hx). destruct (Nx' x Hx) as (k & _ & Eg & _). exact (in_map g_ctts _ _ (nth_error_In _ _ Eg)). }
  destruct G0 as ((sb & Isb & Eb) & G0). split; [rewrite <- Eb; apply Gin; exact Isb|]. split.
  { intros g Hg. apply In_nth_error in Hg. destruct Hg as (k & Eg). apply (G0 (k_level (fl0 (g, nth k ss stream0)))). apply Inlev. exact (nth_error_In _ _ (Nx k g Eg)). }
  intros k g x Eg Ex. replace (zlen file - 8 - zlen body + 8) with mdat by lia. exact (R3 k _ x (Nx k g Eg) Ex).
Qed.
