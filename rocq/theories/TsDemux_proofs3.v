(** Proofs for TsDemux_model: whole transport streams *)
From Coq Require Import ZifyNat.
From Verif Require Import Util Bits_spec TsTime_model Ts_model Ts_proofs Ts_proofs2 Ts_proofs3 Ts_proofs4 Ts_proofs5 TsSect_model TsSect_props TsDemux_model TsDemux_proofs TsDemux_proofs2.
Local Open Scope Z_scope.
Local Ltac Zify.zify_post_hook ::= Z.div_mod_to_equations.

Lemma look_h264_sps : forall x, has_sps x -> look_h264 x = true.
Proof.
  intros x (a & n & b & -> & N & L). induction a as [|y a IH].
  - change (look_h264 ([] ++ [0; 0; 1; n] ++ b)) with ((25 <=? zlen (0 :: 0 :: 1 :: n :: b)) && ((Z.land 31 n =? 7) || look_h264 (0 :: 1 :: n :: b))).
    rewrite Z.land_comm. change 31 with (Z.ones 5). rewrite Z.land_ones by lia. change (2 ^ 5) with 32. rewrite N. rewrite !zlen_cons. destruct (Z.leb_spec 25 (1 + (1 + (1 + (1 + zlen b))))); [reflexivity|lia].
  - cbn [app look_h264]. change (0 :: 0 :: 1 :: n :: b) with ([0; 0; 1; n] ++ b). rewrite IH, orb_true_r, andb_true_r. apply Z.leb_le. rewrite zlen_cons, !zlen_app. change (zlen [0; 0; 1; n]) with 4. pose proof (zlen_nonneg a). lia.
Qed.
Lemma look_aac_adts : forall x, has_adts x -> look_aac x = true.
Proof.
  intros x (a & n & b & -> & N & L). induction a as [|y a IH].
  - change (look_aac ([] ++ [255; n] ++ b)) with ((15 <=? zlen (255 :: n :: b)) && ((n / 16 =? 15) || look_aac (n :: b))).
    rewrite N. rewrite !zlen_cons. destruct (Z.leb_spec 15 (1 + (1 + zlen b))); [reflexivity|lia].
  - cbn [app look_aac]. change (255 :: n :: b) with ([255; n] ++ b). rewrite IH, orb_true_r, andb_true_r. apply Z.leb_le. rewrite zlen_cons, !zlen_app. change (zlen [255; n]) with 2. pose proof (zlen_nonneg a). lia.
Qed.
Lemma gate_pos : forall ty, match gate_of ty with Some (min, _) => 0 < min | None => True end.
Proof. intros ty. unfold gate_of. destruct (ty =? 0x1b); [lia|]. destruct (ty =? 0x0f); [lia|exact I]. Qed.
Lemma recog_shown : forall ty u l us, starts_recognisable ty ((u, l) :: us) -> shown (gate_of ty) l.
Proof.
  intros ty u l us (a & b & E & R1 & R2). unfold shown, gate_of. destruct (Z.eqb_spec ty 0x1b) as [T|_].
  - exists a, b. destruct (R1 T). split; [exact E|]. split; [assumption|]. apply look_h264_sps. assumption.
  - destruct (Z.eqb_spec ty 0x0f) as [T|_]; [|exact I]. exists a, b. destruct (R2 T). split; [exact E|]. split; [assumption|]. apply look_aac_adts. assumption.
Qed.
Lemma feed_recog : forall ty sid us, stream_units sid us -> starts_recognisable ty us -> dfeed (gate_of ty) d0 (concat (map snd us)) = expect None us.
Proof.
  intros ty sid [|[u l] us] S R; [reflexivity|]. apply (feed_shown (gate_of ty) sid); [apply stream_kinds; exact S|eapply recog_shown; exact R|apply gate_pos].
Qed.
Lemma feed_small : forall ty sid us, stream_units sid us -> small_units ty us -> dfeed (gate_of ty) d0 (concat (map snd us)) = [].
Proof.
  intros ty sid us S (min & [[-> ->]|[-> ->]] & F); [change (gate_of 0x1b) with (Some (100, look_h264))|change (gate_of 0x0f) with (Some (30, look_aac))]; apply (feed_never _ _ sid us (stream_kinds sid us S) F); left; reflexivity.
Qed.
(** idle packets *)
Definition quiet (gate : gate_t) (s : dstate) : Prop := s_has (d_ps s) = false /\ (process (d_ps s) = (d_ps s, []) \/ (process (d_ps s) = (d_ps s, [Throws]) /\ opened gate (d_struct s) = false)) /\ (check gate (s_payload (d_ps s)) = true -> d_struct s = true) /\ (match gate with Some (min, _) => 0 < min | None => True end).
Lemma process_cases : forall p, s_has p = false -> (process p = (p, [])) \/ process p = (p, [Throws]) \/ s_has (fst (process p)) = true.
Proof.
  intros p H. unfold process. destruct (zlen (s_payload p) <? 6); [left; reflexivity|]. destruct (nextcode (s_payload p)) as [l|]; [|left; reflexivity].
  destruct (fields _ _) as [|a [|b [|c [|]]]]; try (left; reflexivity). destruct (zlen l <? 6); [right; left; reflexivity|]. destruct (c =? 0); [left; reflexivity|]. destruct (zlen l <? c + 6); [left; reflexivity|].
  destruct (get_pes (bytes_bits l)) as [[q r]|]; [|right; left; reflexivity]. right. right. destruct (s_sid p =? 0); [reflexivity|]. destruct (s_sid p =? b); reflexivity.
Qed.
Lemma before_has : forall p, s_has p = false -> s_has (fst (before_unit_start p)) = false.
Proof.
  intros p H. unfold before_unit_start. rewrite H. destruct (nextcode (s_payload p)) as [l|]; [|exact H]. destruct (get_pes (bytes_bits l)) as [[q r]|]; [|exact H].
  unfold last_len. cbn [s_data]. destruct (p_len q =? 0) eqn:E; cbn [negb fst s_has]; [reflexivity|reflexivity].
Qed.
Lemma idle_step : forall gate s t, quiet gate s -> idle t = true -> dstep gate s t = (s, []).
Proof.
  intros gate s t (Q1 & Q2 & Q3 & Q4) I. unfold idle in I. apply andb_prop in I as [I I3]. apply andb_prop in I as [I1 I2]. unfold dstep, dadd. destruct (Z.eqb_spec (t_tei t) 1); [lia|]. destruct (Z.eqb_spec (t_pusi t) 1); [lia|].
  assert (OB : (t_pay t =? 1) && (t_af t =? 1) && (183 <? t_aflen t) = false) by (destruct (t_payload t); lia). rewrite OB.
  assert (P2 : (if t_pay t =? 1 then mkps (s_payload (d_ps s) ++ t_payload t) (s_gotfirst (d_ps s) || negb match t_payload t with [] => true | _ => false end) (s_has (d_ps s)) (s_data (d_ps s)) (s_sid (d_ps s)) else d_ps s) = d_ps s).
  { destruct (Z.eqb_spec (t_pay t) 1) as [E|]; [|reflexivity]. rewrite E in I3. cbn [Z.eqb Pos.eqb orb] in I3. apply andb_prop in I3 as [I3 I4]. destruct (t_payload t); [|discriminate]. rewrite app_nil_r. cbn [negb]. rewrite orb_false_r. destruct (d_ps s); reflexivity. }
  assert (F : (t_pay t =? 1) && (t_af t =? 1) && negb (t_aflen t =? 183) = false) by (destruct (t_payload t); lia). rewrite F. cbv zeta. rewrite P2.
  assert (ST : d_struct s || match gate with Some (min, look) => (min <=? zlen (s_payload (d_ps s))) && look (s_payload (d_ps s)) | None => false end = d_struct s).
  { fold (check gate (s_payload (d_ps s))). destruct (check gate (s_payload (d_ps s))); [rewrite Q3 by reflexivity; reflexivity|apply orb_false_r]. }
  rewrite ST. assert (EV : exists e, process (d_ps s) = (d_ps s, e) /\ forall f d, flat_map (hand_on gate (d_struct s) f d) e = []).
  { destruct Q2 as [Q2|[Q2 O]]; [exists []; split; [exact Q2|reflexivity]|exists [Throws]; split; [exact Q2|]]. intros f d. cbn [flat_map hand_on]. fold (opened gate (d_struct s)). rewrite O. reflexivity. }
  destruct EV as (ev & -> & EV). rewrite EV. cbn [app d_ps]. rewrite Q1. destruct s as [p f st]. cbn [d_ps d_first d_struct]. destruct f; reflexivity.
Qed.
Lemma quiet_step : forall gate s t s' e, quiet gate s -> dstep gate s t = (s', e) -> existsb fatal e = false -> quiet gate s'.
Proof.
  intros gate s t s' e (Q1 & Q2 & Q3 & Q4). unfold dstep, dadd. destruct (t_tei t =? 1).
  { rewrite Q1. intros [= <- <-] _. split; [exact Q1|split; [exact Q2|split; assumption]]. }
  set (a := if t_pusi t =? 1 then _ else _). assert (A : s_has (d_ps (fst a)) = false /\ d_struct (fst a) = d_struct s /\ (t_pusi t =? 1 = false -> d_ps (fst a) = d_ps s)).
  { unfold a. destruct (t_pusi t =? 1); [|split; [exact Q1|split; reflexivity]]. pose proof (before_has (d_ps s) Q1) as B. destruct (s_gotfirst (d_ps s)).
    - destruct (before_unit_start (d_ps s)) as [p0 e0]. cbn [fst d_ps s_has d_struct] in *. split; [exact B|split; [reflexivity|discriminate]].
    - cbn [fst d_ps s_has d_struct]. split; [exact Q1|split; [reflexivity|discriminate]]. }
  destruct a as [s1 e1]. cbn [fst] in A. destruct A as (A1 & A2 & A3). destruct (_ && _ && (183 <? t_aflen t)); [rewrite A1; intros [= <- <-]; rewrite existsb_app; cbn; rewrite orb_true_r; discriminate|].
  cbv zeta. set (p2 := if t_pay t =? 1 then _ else _). assert (H2 : s_has p2 = false) by (unfold p2; destruct (t_pay t =? 1); exact A1).
  set (st := d_struct s1 || _). set (f := match d_first s1 with Some _ => _ | None => _ end).
  assert (CK : check gate (s_payload p2) = true -> st = true) by (intros C; unfold st; fold (check gate (s_payload p2)); rewrite C; apply orb_true_r).
  destruct (process_cases p2 H2) as [P|[P|P]].
  - rewrite P. cbn [flat_map app d_ps]. rewrite H2. intros [= <- <-] _. split; [exact H2|]. split; [left; exact P|]. split; [exact CK|exact Q4].
  - rewrite P. cbn [flat_map hand_on app d_ps]. rewrite H2. intros [= <- <-] NF. split; [exact H2|]. split; [right; split; [exact P|]|split; [exact CK|exact Q4]]. cbn [d_struct]. rewrite existsb_app in NF. cbn [d_struct]. fold (opened gate st) in NF.
    destruct (opened gate st); [|reflexivity]. cbn in NF. rewrite orb_true_r in NF. discriminate NF.
  - destruct (process p2) as [p3 e3]. cbn [fst] in P. cbn [d_ps]. rewrite P. intros [= <- <-] _. split; [reflexivity|]. split; [left; reflexivity|]. cbn [d_ps s_payload d_struct]. split; [|exact Q4].
    destruct gate as [[min look]|]; cbn [check]; [|discriminate]. change (zlen []) with 0. destruct (Z.leb_spec min 0); [lia|]. discriminate.
Qed.
Lemma feed_idle : forall gate l s, quiet gate s -> dfeed gate s l = dfeed gate s (filter (fun t => negb (idle t)) l).
Proof.
  intros gate. induction l as [|t l IH]; intros s Q; [reflexivity|]. cbn [dfeed filter]. destruct (idle t) eqn:I; cbn [negb].
  - rewrite idle_step by assumption. cbn [existsb app]. apply IH. exact Q.
  - cbn [dfeed]. destruct (dstep gate s t) as [s' e] eqn:E. destruct (existsb fatal e) eqn:FE; [reflexivity|]. f_equal. apply IH. eapply quiet_step; eassumption.
Qed.
Lemma quiet0 : forall ty, quiet (gate_of ty) d0.
Proof.
  intros ty. split; [reflexivity|]. split; [left; reflexivity|]. split; [|apply gate_pos]. unfold gate_of. destruct (ty =? 0x1b); [discriminate|]. destruct (ty =? 0x0f); discriminate.
Qed.
Lemma here_busy : forall pid l, filter (fun t => negb (idle t)) (here pid l) = filter (fun t => (t_pid t =? pid) && negb (idle t)) l.
Proof. intros pid l. unfold here. induction l as [|t l IH]; [reflexivity|]. cbn [filter]. destruct (t_pid t =? pid); cbn [filter andb]; [destruct (idle t); cbn [negb]; rewrite IH; reflexivity|exact IH]. Qed.
Lemma feed_here : forall ty pid l, dfeed (gate_of ty) d0 (here pid l) = dfeed (gate_of ty) d0 (filter (fun t => (t_pid t =? pid) && negb (idle t)) l).
Proof. intros ty pid l. rewrite <- here_busy. apply feed_idle, quiet0. Qed.
Lemma whole_run : forall align streams units l, transport streams units l -> forall ty pid ds, In (ty, pid, ds) streams ->
  of_pid pid (dm_run align dm0 l) = dfeed (gate_of ty) d0 (concat (map snd (units pid))) /\ existsb mfatal (dm_run align dm0 l) = false.
Proof.
  intros align streams units l (tpat & tpmt & n & rest & -> & P0 & NZ & CPAT & CPMT & ND & N0 & NP & H) ty pid ds I.
  destruct CPAT as (fl & id & v & f & la & r & c & A1 & A2 & A3 & A4 & A5 & A6 & A7 & A8 & A9 & A10).
  pose proof (C22_pat_read align fl id v f la r [(n, t_pid tpmt)] c [] [tpat]) as RP. cbn [flat_map] in RP. rewrite app_nil_r in RP. cbv zeta in RP. cbn [length Nat.sub repeat app] in RP.
  specialize (RP ltac:(cbn; lia) A1 A2 A3 A4 A5 A6 A7 ltac:(constructor; [split; assumption|constructor]) A10 ltac:(intros; lia)).
  destruct CPMT as (fl' & id' & v' & f' & la' & r1 & r2 & pcr & info & c' & B1 & B2 & B3 & B4 & B5 & B6 & B7 & B8 & B9 & B10 & B11 & B12 & B13).
  pose proof (C22_pmt_read align fl' id' v' f' la' r1 r2 pcr info streams c' [] [tpmt]) as RM. cbv zeta in RM. cbn [length Nat.sub repeat app] in RM.
  specialize (RM B1 B2 B3 B4 B5 B6 B7 B8 B9 B10 B11 B12 B13 ltac:(intros; lia)).
  destruct (setup align tpat tpmt n (t_pid tpmt) _ _ _ _ rest P0 eq_refl NZ RP RM) as (b1 & b2 & ->). cbn [m_streams].
  assert (F : find_pid pid (put_streams streams []) = Some (ty, d0)) by (eapply put_streams_in; eassumption).
  assert (PN : pid <> 0) by (intros ->; apply N0; exact (in_map (fun s => snd (fst s)) _ _ I)).
  destruct (H ty pid ds I) as (E & _). rewrite <- E, <- feed_here.
  apply run_stream; [apply (known_after b1 n (t_pid tpmt) b2 (mkpmt id' pcr info streams c')); exact NP| |exact PN|exact F].
  intros q tq sq Hq. cbn [dm_pes]. intros FQ. destruct (put_streams_inv _ _ _ _ FQ) as [D|(ty' & ds' & I' & [= -> ->])]; [discriminate D|].
  destruct (H ty' q ds' I') as (E' & (sid & S) & [R|R]); rewrite feed_here, E'.
  - rewrite (feed_recog ty' sid) by assumption. apply expect_calm.
  - rewrite (feed_small ty' sid) by assumption. reflexivity.
Qed.
Lemma whole_expect : forall align streams units l, transport streams units l -> forall ty pid ds, In (ty, pid, ds) streams -> starts_recognisable ty (units pid) ->
  of_pid pid (dm_run align dm0 l) = expect None (units pid).
Proof.
  intros align streams units l T ty pid ds I R. destruct (whole_run align streams units l T ty pid ds I) as [-> _]. destruct T as (tpat & tpmt & n & rest & _ & _ & _ & _ & _ & _ & _ & _ & H).
  destruct (H ty pid ds I) as (_ & (sid & S) & _). exact (feed_recog ty sid _ S R).
Qed.
Lemma decl_is : forall u, declares u -> is_decl u = true. Proof. intros u D. apply bounded_decl, declares_bounded. exact D. Qed.
Lemma open_is : forall u, leaves_open u -> is_decl u = false. Proof. intros u D. apply unbounded_decl, open_unbounded. exact D. Qed.
Lemma rb_times : forall u, u_ok u -> pts_of (Some (u_rb u)) = option_map stamped (u_pts u) /\ dts_of (Some (u_rb u)) = option_map stamped (u_dts u).
Proof.
  intros u (H1 & H2 & _). unfold pts_of, dts_of, u_rb, read_back. cbn [p_pts p_dts]. split.
  - destruct (u_pts u) as [t|]; [|reflexivity]. cbn [option_map]. f_equal. apply stamp_time_of, H1.
  - destruct (u_dts u) as [t|]; [|reflexivity]. cbn [option_map]. f_equal. apply stamp_time_of, H2.
Qed.
Lemma hands_rb : forall u f, u_ok u -> hands_on u f (DUnit (u_body u) f (Some (u_rb u))).
Proof. intros u f U. destruct (rb_times u U) as [A B]. exists (Some (u_rb u)). split; [reflexivity|]. split; assumption. Qed.
Lemma units_hand : forall us es, Forall (fun x => u_ok (fst x)) us -> Forall2 is_unit us es -> Forall2 (fun x e => exists f, hands_on (fst x) f e) us es.
Proof. intros us es U F. induction F as [|x e us es [f ->] F IH]; [constructor|]. inversion U; subst. constructor; [exists f; apply hands_rb; assumption|apply IH; assumption]. Qed.
Lemma transport_ok : forall streams units l ty pid ds, transport streams units l -> In (ty, pid, ds) streams -> Forall (fun x => u_ok (fst x)) (units pid).
Proof.
  intros streams units l ty pid ds (tpat & tpmt & n & rest & _ & _ & _ & _ & _ & _ & _ & _ & H) I. destruct (H ty pid ds I) as (_ & (sid & S) & _). eapply Forall_impl; [|exact S]. intros x (U & _). exact U.
Qed.
