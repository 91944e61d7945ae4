(** Proofs for Seg_model: samples *)
From Coq Require Import ZifyNat.
From Verif Require Import Util Bits_spec SampleTab_model SampleTab_proofs Box_model Box_proofs TsTime_model Ts_model Es_model Es_proofs Es_proofs2 Ts_proofs Ts_proofs2 Ts_proofs3 Ts_proofs4 Crc_model TsSect_model TsDemux_model TsDemux_proofs Ts_proofs5 TsDemux_proofs2 TsDemux_proofs3 TsDemux_props Es_props Seg_model Seg_proofs Seg_proofs2 Seg_proofs3.
Local Open Scope Z_scope.
Local Ltac Zify.zify_post_hook ::= Z.div_mod_to_equations.

Lemma pictures_same : forall us, Forall (fun u => is_nal u /\ ~ In (nal_type u) [7; 8; 9]) us -> picture_units us = us.
Proof. intros us F. induction F as [|u l [_ N] F IH]; [reflexivity|]. rewrite picture_cons, IH. cbn [In] in N. destruct (Z.eqb_spec (nal_type u) 7); [exfalso; lia|]. destruct (Z.eqb_spec (nal_type u) 8); [exfalso; lia|]. destruct (Z.eqb_spec (nal_type u) 9); [exfalso; lia|]. reflexivity. Qed.
Lemma read_one : forall sps pps us k st, is_nal sps -> is_nal pps -> nal_type sps = 7 -> nal_type pps = 8 -> Forall (fun u => is_nal u /\ ~ In (nal_type u) [7; 8; 9]) us ->
  st = Es_proofs2.opened sps pps \/ (st = v0 /\ k = true) -> read_access_unit st (with_delimiter sps pps (us, k)) = Sample (Es_proofs2.opened sps pps) (avcc us).
Proof.
  intros sps pps us k st A B TA TB F [->|[-> ->]]; assert (FN : Forall is_nal us) by (eapply Forall_impl; [|exact F]; intros ? [? _]; assumption); rewrite <- (pictures_same us F) at 2; destruct A as (A1 & A2 & A3 & A4), B as (B1 & B2 & B3 & B4); apply is_nal_ok in FN as [FN _].
  - unfold with_delimiter. cbn [fst snd]. rewrite read_ok by (try assumption; apply with_delimiter_units; try assumption; split; assumption). do 2 f_equal. rewrite picture_cons. change (nal_type [9; 240]) with 9. cbn [Z.eqb negb orb].
    destruct k; [|reflexivity]. cbn [app]. rewrite !picture_cons, TA, TB. reflexivity.
  - apply read_first; try assumption; split; assumption.
Qed.
(** an event for a call *)
Definition video_event (g : config) (sps pps : list Z) (key : bool) (c : call) (e : devent) : Prop := exists us f h, c_body c = avcc us /\ Forall (fun u => is_nal u /\ ~ In (nal_type u) [7; 8; 9]) us
  /\ e = DUnit (with_delimiter sps pps (us, c_key c)) f h /\ pts_of h = Some (stamped (c_comp c + g_present g)) /\ dts_of h = Some (stamped (c_dec c + g_decode g)) /\ (key = true -> iframe f = c_key c).
Lemma video_rest : forall g sps pps key cs es st, strm_ok (SVideo sps pps) -> Forall2 (video_event g sps pps key) cs es -> (st = Es_proofs2.opened sps pps \/ (st = v0 /\ match cs with [] => True | c :: _ => c_key c = true end)) ->
  exists ss, video_samples st es = Some ss /\ Forall2 same_times ss (map (video_back g) cs) /\ (key = true -> ss = map (video_back g) cs).
Proof.
  intros g sps pps key cs es st SO F. pose proof SO as (A & B & TA & TB). revert st. induction F as [|c e cs es (us & f & h & E & FU & -> & P & D & K) F IH]; intros st ST; [exists []; split; [reflexivity|]; split; [constructor|reflexivity]|].
  cbn [video_samples]. rewrite (read_one sps pps us (c_key c) st A B TA TB FU) by (destruct ST as [->|[-> Q]]; [left; reflexivity|right; split; [reflexivity|exact Q]]).
  destruct (IH (Es_proofs2.opened sps pps) (or_introl eq_refl)) as (ss & -> & S1 & S2). cbn [option_map]. eexists. split; [reflexivity|]. split.
  - cbn [map]. constructor; [|exact S1]. unfold same_times, video_back. cbn [s_body s_comp s_dec]. rewrite E, P, D. auto.
  - intros Q. rewrite (S2 Q). cbn [map]. f_equal. unfold video_back. rewrite E, P, D, (K Q). reflexivity.
Qed.
Lemma audio_rest : forall g object rate chan cs es, strm_ok (SAudio object rate chan) -> Forall2 (fun c e => exists b f h, frames_of b = [(mkAdts object rate chan (zlen (c_body c)) 7, c_body c)] /\ e = DUnit b f h /\ pts_of h = Some (stamped (c_comp c + g_present g)) /\ fits (c_comp c + g_present g)) cs es ->
  audio_samples es = Some (map (audio_back g object rate chan) cs).
Proof.
  intros g object rate chan cs es (_ & R & _) F. induction F as [|c e cs es (b & f & h & E & -> & P & FT) F IH]; [reflexivity|]. cbn [audio_samples]. rewrite E. cbn [unit_samples a_rate]. rewrite P. unfold aac_time.
  assert (NZ : rate <> 0) by (intros ->; cbn in R; lia). destruct (Z.eqb_spec rate 0); [congruence|]. cbv zeta. rewrite IH. cbn [option_map Z.of_nat]. rewrite Z.mul_0_r. change (u64 0) with 0. rewrite Z.add_0_r.
  assert (U : u64 (stamped (c_comp c + g_present g)) = stamped (c_comp c + g_present g)) by (unfold u64, stamped; apply Z.mod_small; match goal with |- context [?a mod 2 ^ 33] => pose proof (Z.mod_pos_bound a (2 ^ 33) ltac:(lia)) end; lia).
  rewrite U. reflexivity.
Qed.
(** from units to events *)
Lemma hands_of : forall u v f e, v = u -> hands_on v f e -> hands_on u f e. Proof. intros u v f e -> H. exact H. Qed.
Lemma event_of : forall g sps pps key c f e, nth_error (g_streams g) (c_stream c) = Some (SVideo sps pps) -> strm_ok (SVideo sps pps) -> call_ok g c -> hands_on (fst (fst (cu g c))) f e -> (key = true -> iframe f = snd (fst (cu g c))) -> video_event g sps pps key c e.
Proof.
  intros g sps pps key c f e N S0 OK H K. destruct (video_cu g c sps pps N S0 OK) as (us & E & F & Q & _). rewrite Q in H, K. destruct H as (h & -> & P & D). exists us, f, h. split; [exact E|]. split; [exact F|]. split; [reflexivity|]. split; [exact P|]. split; [exact D|exact K].
Qed.
Lemma last_split : forall A (l : list A), l <> [] -> exists a x, l = a ++ [x]. Proof. intros A l N. destruct (exists_last N) as (a & x & E). eauto. Qed.
Lemma Forall2_map_l : forall A B C (f : A -> B) (P : B -> C -> Prop) l m, Forall2 P (map f l) m <-> Forall2 (fun x y => P (f x) y) l m.
Proof. intros A B C f P l. induction l as [|x l IH]; intros m; (split; intros H; inversion H; subst; constructor; try assumption; apply IH; assumption). Qed.
Lemma Forall2_comp : forall A B C (P : A -> B -> Prop) (Q : B -> C -> Prop) (R : A -> C -> Prop) l m n, (forall a b c, In a l -> P a b -> Q b c -> R a c) -> Forall2 P l m -> Forall2 Q m n -> Forall2 R l n.
Proof.
  intros A B C P Q R l m n H F. revert n. induction F as [|a b l m X F IH]; intros n G; inversion G; subst; constructor; [eapply H; [left; reflexivity|eassumption|assumption]|]. apply IH; [|assumption]. intros a1 b1 c1 I1. apply H. right. exact I1.
Qed.
Lemma unit_decl : forall g l i sps pps, segment_ok g l -> nth_error (g_streams g) i = Some (SVideo sps pps) -> forall c, In c (calls_of i l) -> nth_error (g_streams g) (c_stream c) = Some (SVideo sps pps) /\ call_ok g c
  /\ (short_video sps pps c -> declares (fst (fst (cu g c)))) /\ (long_video sps pps c -> leaves_open (fst (fst (cu g c)))).
Proof.
  intros g l i sps pps (SO & _ & CO & _) N c Hc. apply calls_in in Hc as [Hc E]. rewrite Forall_forall in CO. pose proof (CO c Hc) as OK. rewrite E. split; [exact N|]. split; [exact OK|]. rewrite <- E in N. pose proof (strm_at g _ _ SO N) as S0. destruct (video_cu g c sps pps N S0 OK) as (us & Eb & F & Q & _ & L). split.
  - intros SV. unfold short_video in SV. split; [rewrite L; unfold video_bytes; pose proof (zlen_nonneg sps); pose proof (zlen_nonneg pps); pose proof (zlen_nonneg (c_body c)); destruct (c_key c); lia|]. unfold u_total. rewrite L, Q. unfold video_unit. cbn [fst u_pts u_dts u_escr present b2z]. lia.
  - intros LV. right. rewrite L. exact LV.
Qed.
Lemma video_short : forall align g cont l fill i sps pps, segment_ok g l -> 0 <= cont < 256 -> nth_error (g_streams g) i = Some (SVideo sps pps) -> Forall (short_video sps pps) (calls_of i l) ->
  exists b, segment g cont l fill = Some b /\ video_samples v0 (stream_events align i b) = Some (map (video_back g) (calls_of i l)).
Proof.
  intros align g cont l fill i sps pps OK C N SH. destruct (seg_run g cont l fill OK C) as (b & E & units & T & U). exists b. split; [exact E|]. destruct (U i _ N) as (I & SU & R). pose proof (unit_decl g l i sps pps OK N) as UD. pose proof OK as (SO & _ & _ & ST & _). pose proof (strm_at g i _ SO N) as S0.
  assert (D : Forall (fun x => declares (fst x)) (units (seg_pid i))).
  { clear R. apply (proj1 (Forall2_map_l _ _ _ _ _ _ _)) in SU. rewrite Forall_forall in SH. clear - UD SH SU. revert UD SH SU. generalize (calls_of i l) (units (seg_pid i)). intros cs0 vs UD SH SU. induction SU as [|c v cs vs (Q & _) SU IH]; [constructor|]. apply Forall_cons; [|apply IH; [intros x Hx; apply UD; right; exact Hx|intros x Hx; apply SH; right; exact Hx]]. rewrite Q. apply (UD c (or_introl eq_refl)). apply SH. left. reflexivity. }
  pose proof (C57_keys align _ _ _ _ _ _ T I R D) as H. unfold stream_events. set (es := of_pid _ _) in *. clearbody es.
  assert (EV : Forall2 (video_event g sps pps true) (calls_of i l) es).
  { apply (proj1 (Forall2_map_l _ _ _ _ _ _ _)) in SU. eapply Forall2_comp; [|exact SU|exact H]. cbv beta. intros c v e Hc (Q1 & _ & Q3) HO. destruct (UD c Hc) as (N' & OK' & _). eapply event_of; [exact N'|exact S0|exact OK'|eapply hands_of; [exact Q1|exact HO]|intros _; exact Q3]. }
  destruct (video_rest g sps pps true _ _ v0 S0 EV) as (ss & -> & _ & Q); [|rewrite Q by reflexivity; reflexivity]. right. split; [reflexivity|]. specialize (ST i _ N). cbv beta iota in ST. destruct (calls_of i l); [exact Logic.I|apply ST].
Qed.
Lemma calls_last : forall g l i vs, Forall2 same_unit (map (cu g) (calls_of i l)) vs -> forall cs c, calls_of i l = cs ++ [c] -> exists us v, vs = us ++ [v] /\ Forall2 same_unit (map (cu g) cs) us /\ same_unit (cu g c) v.
Proof.
  intros g l i vs F cs c E. rewrite E, map_app in F. apply Forall2_app_inv_l in F as (us & r & F1 & F2 & ->). cbn [map] in F2. inversion F2 as [|? v ? ? F3 F4]; subst. inversion F4; subst. exists us, v. auto.
Qed.
(** bodies and times, in spite of long samples *)
Lemma video_all : forall align g cont l fill i sps pps cs c, segment_ok g l -> 0 <= cont < 256 -> nth_error (g_streams g) i = Some (SVideo sps pps) -> calls_of i l = cs ++ [c] -> short_video sps pps c ->
  exists b ss, segment g cont l fill = Some b /\ video_samples v0 (stream_events align i b) = Some ss /\ Forall2 same_times ss (map (video_back g) (calls_of i l)).
Proof.
  intros align g cont l fill i sps pps cs c OK C N EC SH. destruct (seg_run g cont l fill OK C) as (b & E & units & T & U). exists b. destruct (U i _ N) as (I & SU & R). pose proof (unit_decl g l i sps pps OK N) as UD. pose proof OK as (SO & _ & _ & ST & _). pose proof (strm_at g i _ SO N) as S0.
  destruct (calls_last g l i _ SU cs c EC) as (us & v & EV & _ & (Q & _)).
  assert (D : declares (fst v)) by (rewrite Q; apply (UD c); [rewrite EC; apply in_or_app; right; left; reflexivity|exact SH]).
  pose proof (C57_all align _ _ _ _ _ _ us v T I R EV D) as H. unfold stream_events. set (es := of_pid _ _) in *. clearbody es.
  assert (VE : Forall2 (video_event g sps pps false) (calls_of i l) es).
  { apply (proj1 (Forall2_map_l _ _ _ _ _ _ _)) in SU. eapply Forall2_comp; [|exact SU|exact H]. cbv beta. intros x w e Hc (Q1 & _ & Q3) (f & HO). destruct (UD x Hc) as (N' & OK' & _). eapply event_of; [exact N'|exact S0|exact OK'|eapply hands_of; [exact Q1|exact HO]|discriminate]. }
  destruct (video_rest g sps pps false _ _ v0 S0 VE) as (ss & S1 & S2 & _); [|exists ss; auto]. right. split; [reflexivity|]. specialize (ST i _ N). cbv beta iota in ST. destruct (calls_of i l); [exact Logic.I|apply ST].
Qed.
Lemma video_lost : forall align g cont l fill i sps pps cs c, segment_ok g l -> 0 <= cont < 256 -> nth_error (g_streams g) i = Some (SVideo sps pps) -> calls_of i l = cs ++ [c] -> long_video sps pps c ->
  exists b ss, segment g cont l fill = Some b /\ video_samples v0 (stream_events align i b) = Some ss /\ Forall2 same_times ss (map (video_back g) cs).
Proof.
  intros align g cont l fill i sps pps cs c OK C N EC SH. destruct (seg_run g cont l fill OK C) as (b & E & units & T & U). exists b. destruct (U i _ N) as (I & SU & R). pose proof (unit_decl g l i sps pps OK N) as UD. pose proof OK as (SO & _ & _ & ST & _). pose proof (strm_at g i _ SO N) as S0.
  destruct (calls_last g l i _ SU cs c EC) as (us & v & EV & SU' & (Q & _)).
  assert (D : leaves_open (fst v)) by (rewrite Q; apply (UD c); [rewrite EC; apply in_or_app; right; left; reflexivity|exact SH]).
  pose proof (C57_last_open_refuted align _ _ _ _ _ _ us v T I R EV D) as H. unfold stream_events. set (es := of_pid _ _) in *. clearbody es.
  assert (VE : Forall2 (video_event g sps pps false) cs es).
  { apply (proj1 (Forall2_map_l _ _ _ _ _ _ _)) in SU'. eapply Forall2_comp; [|exact SU'|exact H]. cbv beta. intros x w e Hc (Q1 & _ & Q3) (f & HO). destruct (UD x) as (N' & OK' & _); [rewrite EC; apply in_or_app; left; exact Hc|]. eapply event_of; [exact N'|exact S0|exact OK'|eapply hands_of; [exact Q1|exact HO]|discriminate]. }
  destruct (video_rest g sps pps false _ _ v0 S0 VE) as (ss & S1 & S2 & _); [|exists ss; auto]. right. split; [reflexivity|]. specialize (ST i _ N). cbv beta iota in ST. rewrite EC in ST. destruct cs; [exact Logic.I|apply ST].
Qed.
Lemma audio_all : forall align g cont l fill i object rate chan, segment_ok g l -> 0 <= cont < 256 -> nth_error (g_streams g) i = Some (SAudio object rate chan) ->
  exists b, segment g cont l fill = Some b /\ audio_samples (stream_events align i b) = Some (map (audio_back g object rate chan) (calls_of i l)).
Proof.
  intros align g cont l fill i object rate chan OK C N. destruct (seg_run g cont l fill OK C) as (b & E & units & T & U). exists b. split; [exact E|]. destruct (U i _ N) as (I & SU & R). pose proof OK as (SO & _ & CO & ST & _). pose proof (strm_at g i _ SO N) as S0.
  assert (IN : forall c, In c (calls_of i l) -> nth_error (g_streams g) (c_stream c) = Some (SAudio object rate chan) /\ call_ok g c) by (intros c Hc; apply calls_in in Hc as [Hc EE]; rewrite EE; split; [exact N|rewrite Forall_forall in CO; apply CO; exact Hc]).
  assert (D : Forall (fun x => declares (fst x)) (units (seg_pid i))).
  { clear R. apply (proj1 (Forall2_map_l _ _ _ _ _ _ _)) in SU. clear - IN SU S0. revert IN SU. generalize (calls_of i l) (units (seg_pid i)). intros cs0 vs IN SU. induction SU as [|c v cs vs (Q & _) SU IH]; [constructor|]. constructor; [|apply IH; intros x Hx; apply IN; right; exact Hx].
    destruct (IN c (or_introl eq_refl)) as [N' OK']. destruct (audio_cu g c _ _ _ N' S0 OK') as (bb & W & _ & Q2 & _). rewrite Q, Q2. destruct (adts_zlen _ _ _ _ _ W) as (ZL & _). unfold call_ok in OK'. rewrite N' in OK'. destruct OK' as ((_ & B) & _). unfold audio_unit. cbn [fst]. split; [cbn [u_body]; lia|]. unfold u_total. cbn [u_pts u_dts u_escr present b2z u_body]. lia. }
  pose proof (C57_keys align _ _ _ _ _ _ T I R D) as H. unfold stream_events. set (es := of_pid _ _) in *. clearbody es. apply audio_rest; [exact S0|].
  apply (proj1 (Forall2_map_l _ _ _ _ _ _ _)) in SU. eapply Forall2_comp; [|exact SU|exact H]. cbv beta. intros c v e Hc (Q1 & _ & Q3) HO. destruct (IN c Hc) as (N' & OK'). destruct (audio_cu g c _ _ _ N' S0 OK') as (bb & W & FR & Q2 & _). rewrite Q1, Q2 in HO. destruct HO as (h & -> & P & _). exists bb, (first_indicator (snd v)), h.
  split; [exact FR|]. split; [reflexivity|]. split; [exact P|]. unfold call_ok in OK'. rewrite N' in OK'. apply OK'.
Qed.
