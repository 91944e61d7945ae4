(** Proofs for Seg_model: the samples of a segment come back *)
From Coq Require Import ZifyNat.
From Verif Require Import Util Bits_spec SampleTab_model SampleTab_proofs Box_model Box_proofs TsTime_model Ts_model Es_model Es_proofs Es_proofs2 Ts_proofs Ts_proofs2 Ts_proofs3 Ts_proofs4 Crc_model TsSect_model TsDemux_model TsDemux_proofs Ts_proofs5 TsDemux_proofs2 TsDemux_proofs3 TsDemux_props Es_props Seg_model Seg_proofs Seg_proofs2.
Local Open Scope Z_scope.
Local Ltac Zify.zify_post_hook ::= Z.div_mod_to_equations.

Lemma time_arg_fits : forall t, fits t -> time_arg (u64 t) = Some t.
Proof. intros t [H1 H2]. unfold time_arg, u64. rewrite Z.mod_small by lia. destruct (Z.eqb_spec t (2 ^ 64 - 1)); [lia|reflexivity]. Qed.
Lemma annex_zlen : forall us, zlen (annex_b us) = zlen (avcc us).
Proof. induction us as [|u us IH]; [reflexivity|]. change (annex_b (u :: us)) with ((code4 ++ u) ++ annex_b us). change (avcc (u :: us)) with ((be 4 (zlen u) ++ u) ++ avcc us). rewrite !zlen_app, IH. change (zlen code4) with 4. replace (zlen (be 4 (zlen u))) with 4 by (unfold zlen; rewrite be_length; reflexivity). reflexivity. Qed.
Lemma annex_bytes : forall us, Forall bytes us -> bytes (annex_b us).
Proof. intros us F. induction F as [|u us H F IH]; [constructor|]. change (annex_b (u :: us)) with ((code4 ++ u) ++ annex_b us). apply bytes_app; split; [|exact IH]. apply bytes_app; split; [|exact H]. unfold code4. repeat (apply bytes_cons; split; [unfold is_byte; lia|]). constructor. Qed.
Lemma delimiter_zlen : forall sps pps us k, zlen (with_delimiter sps pps (us, k)) = 6 + (if k then 8 + zlen sps + zlen pps else 0) + zlen (avcc us).
Proof.
  intros sps pps us k. unfold with_delimiter. cbn [fst snd]. change (annex_b ([9; 0xf0] :: (if k then [sps; pps] else []) ++ us)) with ([0; 0; 0; 1; 9; 0xf0] ++ annex_b ((if k then [sps; pps] else []) ++ us)).
  rewrite zlen_app. change (zlen [0; 0; 0; 1; 9; 0xf0]) with 6. unfold annex_b. rewrite map_app, concat_app, zlen_app. fold (annex_b us). rewrite annex_zlen. destruct k; cbn [map concat]; rewrite ?app_nil_r, ?zlen_app; change (zlen [0; 0; 0; 1]) with 4; change (zlen (@nil Z)) with 0; lia.
Qed.
Definition video_unit (g : config) (sps pps : list Z) (us : list (list Z)) (c : call) : unit_t * bool * option Z :=
  (mkunit 0 0 224 (Some (c_comp c + g_present g)) (Some (c_dec c + g_decode g)) None (with_delimiter sps pps (us, c_key c)), c_key c, if c_key c then Some (c_dec c + g_decode g) else None).
Lemma video_cu : forall g c sps pps, nth_error (g_streams g) (c_stream c) = Some (SVideo sps pps) -> strm_ok (SVideo sps pps) -> call_ok g c ->
  exists us, c_body c = avcc us /\ Forall (fun u => is_nal u /\ ~ In (nal_type u) [7; 8; 9]) us /\ cu g c = video_unit g sps pps us c /\ call_good g c /\ zlen (u_body (fst (fst (cu g c)))) = video_bytes sps pps c.
Proof.
  intros g c sps pps N (A & B & TA & TB) OK. unfold call_ok in OK. rewrite N in OK. destruct OK as ((us & E & F) & X & SL & T1 & T2). exists us. split; [exact E|]. split; [exact F|].
  assert (FN : Forall is_nal us) by (eapply Forall_impl; [|exact F]; tauto).
  assert (CU : call_unit g c = Some (Some (video_unit g sps pps us c))).
  { unfold call_unit. rewrite N, E. rewrite (write_ok sps pps (us, c_key c) FN : access_unit sps pps (c_key c) (avcc us) = _). cbn [option_map]. rewrite !time_arg_fits by assumption. reflexivity. }
  assert (Q : cu g c = video_unit g sps pps us c) by (unfold cu; rewrite CU; reflexivity).
  assert (L : zlen (with_delimiter sps pps (us, c_key c)) = video_bytes sps pps c) by (rewrite delimiter_zlen; unfold video_bytes; rewrite E; reflexivity).
  split; [exact Q|]. split; [|rewrite Q; exact L]. split; [rewrite Q; exact CU|]. split; [|apply nth_error_Some; congruence]. rewrite Q. unfold video_unit. split; [|split; [|split]].
  - split; [exact T1|]. split; [exact T2|]. split; [exact I|]. cbn. lia.
  - cbn [u_body]. unfold with_delimiter. cbn [fst snd]. apply annex_bytes. constructor; [repeat (apply bytes_cons; split; [unfold is_byte; lia|]); constructor|]. apply Forall_app. split; [destruct (c_key c); [constructor; [apply A|constructor; [apply B|constructor]]|constructor]|]. eapply Forall_impl; [|exact FN]. intros u (_ & H & _). exact H.
  - destruct (c_key c); [exact T2|exact I].
  - intros K. rewrite K. rewrite u_bytes_len. cbn [u_body first_room present]. unfold u_hdl, header_data_length. cbn [u_pts u_dts u_escr present b2z]. rewrite K in L. rewrite L. specialize (X K). lia.
Qed.
Definition audio_unit (g : config) (b : list Z) (c : call) : unit_t * bool * option Z := (mkunit 0 0 192 (Some (c_comp c + g_present g)) None None b, c_key c, None).
Lemma adts_zlen : forall object rate chan f b, aac_unit object rate chan f = Some b -> zlen b = 7 + zlen f /\ (bytes f -> bytes b) /\ exists n r, b = 255 :: n :: r /\ n / 16 = 15.
Proof.
  intros object rate chan f b H. unfold aac_unit in H. destruct (adts_header object rate chan (zlen f)) as [h|] eqn:E; [|discriminate H]. injection H as <-. unfold adts_header in E. destruct (code_of rate rates) as [r|]; [|discriminate E]. destruct (code_of chan channels) as [k|]; [|discriminate E].
  apply (f_equal (fun o => match o with Some x => x | None => [] end)) in E. cbv beta iota in E. 
  assert (L : length h = 7%nat) by (rewrite <- E; apply (pack_length _ 7); reflexivity). assert (B : bytes h) by (rewrite <- E; apply (pack_bytes _ 7); reflexivity).
  assert (H2 : hd 0 h = 255 /\ nth 1 h 0 / 16 = 15).
  { rewrite <- E. unfold pack. cbn [flat_map fst snd]. set (rest := field_bits (u32 (object - 1)) 2 ++ _). split; reflexivity. }
  split; [rewrite zlen_app; unfold zlen at 1; rewrite L; reflexivity|]. split; [intros Bf; apply bytes_app; split; assumption|].
  destruct h as [|x [|y h]]; try discriminate L. cbn [hd nth] in H2. destruct H2 as [-> H2]. exists y, (h ++ f). split; [reflexivity|exact H2].
Qed.
Lemma audio_cu : forall g c object rate chan, nth_error (g_streams g) (c_stream c) = Some (SAudio object rate chan) -> strm_ok (SAudio object rate chan) -> call_ok g c ->
  exists b, aac_unit object rate chan (c_body c) = Some b /\ frames_of b = [(mkAdts object rate chan (zlen (c_body c)) 7, c_body c)] /\ cu g c = audio_unit g b c /\ call_good g c.
Proof.
  intros g c object rate chan N (A1 & A2 & A3) OK. unfold call_ok in OK. rewrite N in OK. destruct OK as (F & X & T).
  destruct (C56_audio object rate chan [c_body c] A1 A2 A3 ltac:(constructor; [exact F|constructor])) as (bs & W & _ & R). inversion W as [|? b ? ? W1 W2]; subst. inversion W2; subst. inversion R as [|? ? ? ? R1 _]; subst. exists b. split; [exact W1|]. split; [exact R1|].
  destruct (adts_zlen _ _ _ _ _ W1) as (L & B & _).
  assert (CU : call_unit g c = Some (Some (audio_unit g b c))) by (unfold call_unit; rewrite N, W1; cbn [option_map]; rewrite time_arg_fits by exact T; reflexivity).
  assert (Q : cu g c = audio_unit g b c) by (unfold cu; rewrite CU; reflexivity). split; [exact Q|]. split; [rewrite Q; exact CU|]. split; [|apply nth_error_Some; congruence]. rewrite Q. unfold audio_unit. split; [|split; [|split]].
  - split; [exact T|]. split; [exact I|]. split; [exact I|]. cbn. lia.
  - apply B. apply F.
  - exact I.
  - intros K. rewrite u_bytes_len. unfold u_hdl, header_data_length, first_room. cbn [u_body u_pts u_dts u_escr present b2z]. rewrite K, L. specialize (X K). lia.
Qed.
Lemma stream_of : forall g c, call_ok g c -> exists s, nth_error (g_streams g) (c_stream c) = Some s. Proof. intros g c H. unfold call_ok in H. destruct (nth_error (g_streams g) (c_stream c)) as [s|]; [eauto|destruct H]. Qed.
Lemma strm_at : forall g i s, Forall strm_ok (g_streams g) -> nth_error (g_streams g) i = Some s -> strm_ok s. Proof. intros g i s F H. apply nth_error_In in H. rewrite Forall_forall in F. apply F. exact H. Qed.
Lemma good_calls : forall g l, Forall strm_ok (g_streams g) -> Forall (call_ok g) l -> Forall (call_good g) l.
Proof.
  intros g l SO F. eapply Forall_impl; [|exact F]. intros c OK. destruct (stream_of g c OK) as [s N]. pose proof (strm_at g _ _ SO N) as S0. destruct s as [sps pps|o r k|]; [| |destruct S0].
  - destruct (video_cu g c sps pps N S0 OK) as (us & _ & _ & _ & G & _). exact G.
  - destruct (audio_cu g c o r k N S0 OK) as (b & _ & _ & _ & G). exact G.
Qed.
Lemma calls_in : forall i l c, In c (calls_of i l) -> In c l /\ c_stream c = i. Proof. intros i l c H. apply filter_In in H as [A B]. apply Nat.eqb_eq in B. split; assumption. Qed.
Lemma video_recognisable : forall g sps pps us c, nal_type sps = 7 -> sps <> [] -> c_key c = true -> c_body c = avcc us -> 81 <= video_bytes sps pps c -> recognisable 0x1b (u_bytes (fst (fst (video_unit g sps pps us c)))).
Proof.
  intros g sps pps us c T NE K E L. assert (ZL : zlen (with_delimiter sps pps (us, c_key c)) = video_bytes sps pps c) by (rewrite delimiter_zlen; unfold video_bytes; rewrite E; reflexivity).
  set (u := fst (fst (video_unit g sps pps us c))). assert (LU : zlen (u_bytes u) = 19 + video_bytes sps pps c) by (rewrite u_bytes_len; unfold u_hdl, header_data_length; unfold u, video_unit; cbn [fst u_body u_pts u_dts u_escr present b2z]; lia).
  split; [|discriminate]. intros _. split; [lia|]. destruct sps as [|n sps]; [congruence|]. rewrite u_bytes_eq in *. assert (LH : zlen (u_hdr u) = 19) by (rewrite zlen_app in LU; unfold u, video_unit in *; cbn [fst u_body] in *; lia).
  exists (u_hdr u ++ [0; 0; 0; 1; 9; 240; 0]), n. eexists. split; [|split; [exact T|]].
  - unfold u at 2, video_unit. cbn [fst u_body]. unfold with_delimiter. cbn [fst snd]. rewrite K. cbn [annex_b map concat app]. rewrite <- app_assoc. cbn [app]. reflexivity.
  - unfold u in *. unfold video_unit in *. cbn [fst u_body] in *. rewrite zlen_app in LU. rewrite ZL in LU. unfold with_delimiter in ZL. cbn [fst snd] in ZL. rewrite K in ZL. cbn [annex_b map concat app] in ZL. rewrite !zlen_cons in ZL. rewrite K in *. cbn [app] in *. lia.
Qed.
Lemma audio_recognisable : forall g object rate chan c b, aac_unit object rate chan (c_body c) = Some b -> 9 <= zlen (c_body c) -> recognisable 0x0f (u_bytes (fst (fst (audio_unit g b c)))).
Proof.
  intros g object rate chan c b W L. destruct (adts_zlen _ _ _ _ _ W) as (ZL & _ & n & r & E & N). set (u := fst (fst (audio_unit g b c))). assert (LU : zlen (u_bytes u) = 14 + zlen b) by (rewrite u_bytes_len; unfold u_hdl, header_data_length; unfold u, audio_unit; cbn [fst u_body u_pts u_dts u_escr present b2z]; lia).
  split; [discriminate|]. intros _. split; [lia|]. rewrite u_bytes_eq. exists (u_hdr u), n, r. split; [unfold u at 2, audio_unit; cbn [fst u_body]; rewrite E; reflexivity|]. split; [exact N|]. rewrite E, !zlen_cons in ZL. lia.
Qed.
Lemma streams_fine : forall g l, segment_ok g l -> forall i s, nth_error (g_streams g) i = Some s -> stream_fine (type_of s) (map (cu g) (calls_of i l)).
Proof.
  intros g l (SO & _ & CO & ST & _) i s N. pose proof (strm_at g i s SO N) as S0. specialize (ST i s N).
  assert (IN : forall c, In c (calls_of i l) -> nth_error (g_streams g) (c_stream c) = Some s /\ call_ok g c) by (intros c Hc; apply calls_in in Hc as [Hc E]; rewrite E; split; [exact N|rewrite Forall_forall in CO; apply CO; exact Hc]).
  destruct s as [sps pps|o r k|]; [| |destruct S0].
  - split.
    + exists 224. apply Forall_forall. intros x Hx. apply in_map_iff in Hx as (c & <- & Hc). destruct (IN c Hc) as [N' OK]. destruct (video_cu g c sps pps N' S0 OK) as (us & E & F & Q & _ & L).
      unfold call_ok in OK. rewrite N' in OK. destruct OK as (_ & _ & [SV|LV] & _); [left|right].
      * split; [|rewrite Q; reflexivity]. unfold short_video in SV. split; [rewrite L; unfold video_bytes; pose proof (zlen_nonneg sps); pose proof (zlen_nonneg pps); pose proof (zlen_nonneg (c_body c)); destruct (c_key c); lia|].
        unfold u_total. rewrite L. rewrite Q. unfold video_unit. cbn [fst u_pts u_dts u_escr present b2z]. lia.
      * right. rewrite L. exact LV.
    + destruct (calls_of i l) as [|c cs] eqn:EC; [exact I|]. cbn [map]. destruct ST as [K L]. destruct (IN c ltac:(left; reflexivity)) as [N' OK]. destruct (video_cu g c sps pps N' S0 OK) as (us & E & F & Q & _). rewrite Q. destruct S0 as (A & _ & T & _). apply video_recognisable; [exact T|apply A|exact K|exact E|exact L].
  - split.
    + exists 192. apply Forall_forall. intros x Hx. apply in_map_iff in Hx as (c & <- & Hc). destruct (IN c Hc) as [N' OK]. destruct (audio_cu g c o r k N' S0 OK) as (b & W & R & Q & _). destruct (adts_zlen _ _ _ _ _ W) as (ZL & _).
      unfold call_ok in OK. rewrite N' in OK. destruct OK as ((_ & B) & _). left. rewrite Q. unfold audio_unit. split; [|reflexivity]. cbn [fst]. split; [cbn [u_body]; lia|]. unfold u_total. cbn [u_pts u_dts u_escr present b2z u_body]. lia.
    + destruct (calls_of i l) as [|c cs] eqn:EC; [exact I|]. cbn [map]. destruct (IN c ltac:(left; reflexivity)) as [N' OK]. destruct (audio_cu g c o r k N' S0 OK) as (b & W & R & Q & _). rewrite Q. eapply audio_recognisable; eassumption.
Qed.
Lemma carried_ok : forall g, Forall strm_ok (g_streams g) -> (length (g_streams g) <= 33)%nat -> all_carried g.
Proof. intros g F L. split; [|exact L]. eapply Forall_impl; [|exact F]. intros [| |] H; [reflexivity|reflexivity|destruct H]. Qed.
Lemma seg_run : forall g cont l fill, segment_ok g l -> 0 <= cont < 256 -> exists b, segment g cont l fill = Some b /\ exists units, transport (g_pmt g) units (get_packets (length b) b)
    /\ forall i s, nth_error (g_streams g) i = Some s -> In (type_of s, seg_pid i, []) (g_pmt g) /\ Forall2 same_unit (map (cu g) (calls_of i l)) (units (seg_pid i)) /\ starts_recognisable (type_of s) (units (seg_pid i)).
Proof.
  intros g cont l fill OK C. pose proof OK as (SO & LN & CO & ST & NE). pose proof (carried_ok g SO LN) as A. destruct (segment_transport g cont l fill A C (good_calls g l SO CO) NE (streams_fine g l OK)) as (b & E & R). exists b. split; [exact E|].
  destruct (R (length b) (Nat.le_refl _)) as (units & T & U). exists units. split; [exact T|]. intros i s N. split; [apply in_pmt; [exact A|]; exists i, s; auto|apply U; exact N].
Qed.
