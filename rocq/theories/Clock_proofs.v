(** Proofs for Clock_model *)
From Coq Require Import ZifyNat.
From Verif Require Import Util Bits_spec SampleTab_model SampleTab_proofs Box_model Box_proofs TsTime_model Ts_model Es_model Es_proofs Ts_proofs Ts_proofs2 Ts_proofs3 Ts_proofs4 Crc_model TsSect_model TsSect_proofs TsSect_proofs3 TsDemux_model TsDemux_proofs Ts_proofs5 TsDemux_proofs2 TsDemux_proofs3 TsDemux_props Seg_model Seg_proofs Seg_proofs2 Seg_proofs3 Clock_model.
Local Open Scope Z_scope.

Lemma refs_app : forall a b, clock_refs (a ++ b) = clock_refs a ++ clock_refs b. Proof. intros. unfold clock_refs. apply flat_map_app. Qed.
Lemma refs_none : forall ps, Forall (fun p => iso_pcr_flag p = 0) ps -> clock_refs ps = []. Proof. intros ps F. induction F as [|p ps H F IH]; [reflexivity|]. cbn [clock_refs flat_map]. rewrite H. exact IH. Qed.
Lemma output_refs : forall pid data rai pcr cc l c, 0 <= pid < 8192 -> bytes data -> 0 <= cc < 256 -> (match pcr with None => True | Some t => fits t end) -> (rai = true -> zlen data <> first_room rai pcr - 1) ->
  output_ts pid data rai pcr cc = Packets l c -> clock_refs l = match eff_pcr rai pcr with Some t => [(pid, t / 10000 * 90 mod 2 ^ 33, 0)] | None => [] end.
Proof.
  intros pid data rai pcr cc l c Hp Hb Hc Hf Hx E. destruct (output_ts_spec pid data rai pcr cc Hp Hb Hc Hf Hx) as (p1 & l' & c' & E' & I & _ & _ & _ & PF & PB & R & _). rewrite E in E'. injection E' as -> ->.
  cbn [clock_refs flat_map]. fold (clock_refs l'). rewrite (refs_none l') by (eapply Forall_impl; [|exact R]; intros p (_ & _ & H); exact H). rewrite app_nil_r, PF. destruct (Forall_inv I) as (_ & _ & _ & P & _).
  destruct (eff_pcr rai pcr) as [t|]; cbn [present b2z Z.eqb Pos.eqb]; [|reflexivity]. destruct (PB t eq_refl) as [-> ->]. rewrite P. reflexivity.
Qed.
Lemma tables_refs : forall g cc ps cc', all_carried g -> cc_ok cc -> put_tables g cc = Some (ps, cc') -> clock_refs ps = [].
Proof.
  intros g cc ps cc' A OK E. unfold put_tables in E. fold (pat_data g) in E. fold (pmt_data g) in E. destruct (pat_facts g) as (B1 & B2 & B3). destruct (pmt_facts g A) as (C1 & C2 & C3).
  destruct (output_ts 0 (pat_data g) false None (cc 0)) as [l1 c1|] eqn:E1; [|discriminate E]. destruct (table_piece 0 (pat_data g) (cc 0) ltac:(lia) (OK 0) B1 B2 B3) as (l1' & c1' & E1' & _ & R1). rewrite E1 in E1'. injection E1' as <- <-.
  pose proof (set_cc_ok cc 0 c1 OK R1) as OK1.
  destruct (output_ts pmt_pid (pmt_data g) false None (set_cc cc 0 c1 pmt_pid)) as [l2 c2|] eqn:E2; [|discriminate E]. injection E as <- _. rewrite refs_app.
  assert (P : 0 <= pmt_pid < 8192) by (unfold pmt_pid; lia).
  assert (N1 : false = true -> zlen (pat_data g) <> first_room false None - 1) by discriminate. assert (N2 : false = true -> zlen (pmt_data g) <> first_room false None - 1) by discriminate.
  rewrite (output_refs 0 (pat_data g) false None (cc 0) l1 c1 ltac:(lia) B1 (OK 0) I N1 E1), (output_refs pmt_pid (pmt_data g) false None _ l2 c2 P C1 (OK1 pmt_pid) I N2 E2). reflexivity.
Qed.
Lemma stuff_refs : forall ss i cc ps cc', cc_ok cc -> (i + length ss <= 3840)%nat -> stuff i ss cc = Some (ps, cc') -> clock_refs ps = [].
Proof.
  induction ss as [|s ss IH]; intros i cc ps cc' OK L E; cbn [stuff length] in *; [injection E as <- _; reflexivity|].
  assert (Hp : 0 <= seg_pid i < 8192) by (unfold seg_pid; lia). destruct (fill_ok (seg_pid i) (cc (seg_pid i)) Hp (OK _)) as (l & c & E1 & C & _ & _ & F). rewrite E1 in E.
  assert (R : 0 <= c < 256) by (subst c; apply Z.mod_pos_bound; lia).
  destruct (stuff (S i) ss (set_cc cc (seg_pid i) c)) as [[b cc2]|] eqn:E2; [|discriminate E]. injection E as <- _. rewrite refs_app, (IH (S i) _ _ _ (set_cc_ok _ _ _ OK R) ltac:(lia) E2), app_nil_r.
  apply refs_none. apply Forall_forall. intros p Hin. apply In_nth_error in Hin as [k Hk]. exact (it_pcr _ _ _ _ _ _ _ (F k p Hk)).
Qed.
Lemma cu_refs : forall g c, Forall strm_ok (g_streams g) -> call_ok g c -> call_refs g c = match eff_pcr (snd (fst (cu g c))) (snd (cu g c)) with Some t => [(seg_pid (c_stream c), t / 10000 * 90 mod 2 ^ 33, 0)] | None => [] end.
Proof.
  intros g c SO OK. destruct (stream_of g c OK) as (s & N). pose proof (strm_at g _ _ SO N) as S0. unfold call_refs. rewrite N. destruct s as [sps pps|object rate chan|]; [| |destruct S0].
  - destruct (video_cu g c sps pps N S0 OK) as (us & _ & _ & -> & _). unfold video_unit, eff_pcr. cbn [fst snd]. destruct (c_key c); reflexivity.
  - destruct (audio_cu g c _ _ _ N S0 OK) as (b & _ & _ & -> & _). unfold audio_unit, eff_pcr. cbn [fst snd]. destruct (c_key c); reflexivity.
Qed.
Lemma adds_refs : forall g l s ps s', all_carried g -> Forall strm_ok (g_streams g) -> cc_ok (st_cc s) -> Forall (call_ok g) l -> seg_adds g s l = Some (ps, s') -> clock_refs ps = flat_map (call_refs g) l.
Proof.
  intros g l. induction l as [|c l IH]; intros s ps s' A SO OK F E; cbn [seg_adds] in E; [injection E as <- _; reflexivity|].
  inversion F as [|? ? F1 F2]; subst. pose proof (good_calls g [c] SO ltac:(constructor; [exact F1|constructor])) as G. apply Forall_inv in G.
  destruct (add_pieces g s c A OK G) as (_ & p1 & s1 & E1 & _ & OK1 & _). rewrite E1 in E. destruct (seg_adds g s1 l) as [[b s2]|] eqn:E2; [|discriminate E]. injection E as <- _. rewrite refs_app, (IH s1 b s2 A SO OK1 F2 E2). cbn [flat_map]. f_equal.
  destruct G as (CU & UF & LT). unfold seg_add in E1.
  assert (T : exists l1 cc1, (if tables_due g s c then put_tables g (st_cc s) else Some ([], st_cc s)) = Some (l1, cc1) /\ clock_refs l1 = [] /\ cc_ok cc1).
  { destruct (tables_due g s c); [|exists [], (st_cc s); split; [reflexivity|]; split; [reflexivity|exact OK]]. destruct (tables_pieces g (st_cc s) A OK) as (q1 & q2 & cc' & PT & _ & _ & OK'). exists (q1 ++ q2), cc'. split; [exact PT|]. split; [exact (tables_refs g _ _ _ A OK PT)|exact OK']. }
  destruct T as (l1 & cc1 & T & R1 & OKc). rewrite T, CU in E1. rewrite (cu_refs g c SO F1). destruct (cu g c) as [[u rai] pcr]. cbn [fst snd] in *. destruct UF as (Hu & Hb & Hf & Hx).
  destruct (output_ts (seg_pid (c_stream c)) (u_bytes u) rai pcr (cc1 (seg_pid (c_stream c)))) as [l2 c2|] eqn:E3; [|discriminate E1]. injection E1 as E1 _. rewrite <- E1, refs_app, R1. cbn [app].
  assert (Hp : 0 <= seg_pid (c_stream c) < 8192) by (destruct A as [_ A]; unfold seg_pid; lia).
  exact (output_refs _ _ _ _ _ _ _ Hp (u_bytes_bytes u Hb) (OKc _) Hf Hx E3).
Qed.
Lemma segment_refs : forall g cont l fill, segment_ok g l -> 0 <= cont < 256 -> exists ps, segment g cont l fill = Some (concat ps) /\ Forall (fun p => length p = 188%nat) ps /\ clock_refs ps = flat_map (call_refs g) l.
Proof.
  intros g cont l fill OK C. pose proof OK as (SO & LE & CO & _ & NE). pose proof (carried_ok g SO LE) as A. pose proof (good_calls g l SO CO) as GC. pose proof (start_ok cont C) as K0.
  destruct (adds_pieces g l (seg_start cont) A K0 GC) as (ks & pk & s' & E & P & OKs & _). pose proof (adds_refs g l _ _ _ A SO K0 CO E) as R. unfold segment. rewrite E.
  assert (L8 : forall ks pk, Forall2 piece_ok ks pk -> Forall (fun p => length p = 188%nat) (concat pk)).
  { clear. intros ks pk P. apply Forall_concat_packets. induction P as [|k ps ks pk H P IH]; constructor; [|exact IH]. apply piece_readable in H. eapply Forall_impl; [|exact H]. intros p [(L & _) _]. exact L. }
  destruct fill.
  - destruct (stuff_pieces (g_streams g) 0 (st_cc s') OKs ltac:(lia)) as (pf & cc' & E2 & kf & PF & KF). rewrite E2. exists (concat pk ++ concat pf). split; [reflexivity|]. split; [apply Forall_app; split; eapply L8; eassumption|].
    rewrite refs_app, R, (stuff_refs _ _ _ _ _ OKs (ltac:(lia) : (0 + length (g_streams g) <= 3840)%nat) E2). apply app_nil_r.
  - exists (concat pk). split; [reflexivity|]. split; [eapply L8; exact P|exact R].
Qed.
Lemma first_video_at : forall l k i, first_video k l = Some i <-> exists j, i = (k + j)%nat /\ (exists s, nth_error l j = Some s /\ is_video s) /\ forall m s, (m < j)%nat -> nth_error l m = Some s -> ~ is_video s.
Proof.
  induction l as [|s l IH]; intros k i; cbn [first_video].
  - split; [discriminate|]. intros (j & _ & (s & H & _) & _). destruct j; discriminate H.
  - destruct s as [sps pps|object rate chan|].
    + split.
      * intros H. injection H as <-. exists 0%nat. split; [lia|]. split; [eexists; split; [reflexivity|exact I]|]. intros m s Hm. lia.
      * intros (j & -> & _ & H). destruct j as [|j]; [f_equal; lia|]. destruct (H 0%nat _ ltac:(lia) eq_refl). exact I.
    + rewrite IH. split; intros (j & -> & H1 & H2).
      * exists (S j). split; [lia|]. split; [exact H1|]. intros [|m] s Hm N; [injection N as <-; tauto|]. eapply H2; [|exact N]. lia.
      * destruct j as [|j]; [destruct H1 as (s & N & V); injection N as <-; destruct V|]. exists j. split; [lia|]. split; [exact H1|]. intros m s Hm N. apply (H2 (S m) s ltac:(lia) N).
    + rewrite IH. split; intros (j & -> & H1 & H2).
      * exists (S j). split; [lia|]. split; [exact H1|]. intros [|m] s Hm N; [injection N as <-; tauto|]. eapply H2; [|exact N]. lia.
      * destruct j as [|j]; [destruct H1 as (s & N & V); injection N as <-; destruct V|]. exists j. split; [lia|]. split; [exact H1|]. intros m s Hm N. apply (H2 (S m) s ltac:(lia) N).
Qed.
Lemma first_video_none : forall l k, first_video k l = None <-> Forall (fun s => ~ is_video s) l.
Proof. induction l as [|s l IH]; intros k; cbn [first_video]; [split; [constructor|reflexivity]|]. destruct s; [split; [discriminate|intros F; inversion F as [|? ? N _]; destruct (N I)]|rewrite IH; split; [intros F; constructor; [intros []|exact F]|intros F; inversion F; assumption]|rewrite IH; split; [intros F; constructor; [intros []|exact F]|intros F; inversion F; assumption]]. Qed.
From Verif Require Import TsSect_props.
(** the table read back *)
Lemma segment_pmt : forall align g cont l fill, segment_ok g l -> 0 <= cont < 256 -> exists p0 p1 rest crc, segment g cont l fill = Some (concat (p0 :: p1 :: rest)) /\ length p0 = 188%nat /\ length p1 = 188%nat
  /\ psi_feed align 2 get_pmt [] (get_packets 1 p1) = [Table (mkpmt 1 (pcr_pid_of g) [] (g_pmt g) crc) crc].
Proof.
  intros align g cont l fill OK C. pose proof OK as (SO & LE & CO & _ & NE). pose proof (carried_ok g SO LE) as A. pose proof (good_calls g l SO CO) as GC. pose proof (start_ok cont C) as K0.
  destruct (segment_pieces g cont l fill A C GC NE) as (ks0 & pk0 & E0 & _). destruct l as [|c l]; [congruence|]. unfold segment in *. cbn [seg_adds] in *. unfold seg_add in *. change (tables_due g (seg_start cont) c) with true in *. cbv iota zeta in *.
  destruct (seg_entry_ok g A) as (X1 & X2 & X3).
  destruct (table_piece 0 (pat_data g) cont ltac:(lia) C (proj1 (pat_facts g)) (proj1 (proj2 (pat_facts g))) (proj2 (proj2 (pat_facts g)))) as (l1 & c1 & E1 & (RD & p0 & -> & _) & R1).
  destruct (C22_pmt_round_trip (g_align g) align (g_r2 g) 1 (pcr_pid_of g) (pmt_entries g) cont pmt_pid [] ltac:(lia) C ltac:(unfold pid_ok, pmt_pid; lia) ltac:(unfold w16; lia) X3 X1) as (p1 & c2 & crc & E2 & RB).
  destruct (table_piece pmt_pid (pmt_data g) cont ltac:(unfold pmt_pid; lia) C (proj1 (pmt_facts g A)) (proj1 (proj2 (pmt_facts g A))) (proj2 (proj2 (pmt_facts g A)))) as (l2 & c2' & E2' & (RD2 & q & -> & _) & R2). unfold pmt_data in E2'. rewrite E2 in E2'. injection E2' as <- <-.
  assert (PT : put_tables g (st_cc (seg_start cont)) = Some ([p0; p1], set_cc (set_cc (st_cc (seg_start cont)) 0 c1) pmt_pid c2)).
  { unfold put_tables. fold (pat_data g). change (st_cc (seg_start cont) 0) with cont. rewrite E1. cbn [set_cc]. change (set_cc (st_cc (seg_start cont)) 0 c1 pmt_pid) with cont. rewrite E2. reflexivity. }
  rewrite PT in *. assert (L8 : forall pid p, readable pid p -> length p = 188%nat) by (intros pid p [(L & _) _]; exact L).
  assert (FIN : forall rest, exists rest', Some (concat ([p0; p1] ++ rest)) = Some (concat (p0 :: p1 :: rest')) /\ rest' = rest) by (intros rest; exists rest; split; reflexivity).
  exists p0, p1. apply Forall_inv in RD. apply Forall_inv in RD2.
  assert (GO : exists rest, match (match call_unit g c with None => None | Some None => Some ([p0; p1], mkSt false (set_cc (set_cc (st_cc (seg_start cont)) 0 c1) pmt_pid c2)) | Some (Some (u, rai, pcr)) => match output_ts (seg_pid (c_stream c)) (u_bytes u) rai pcr (set_cc (set_cc (st_cc (seg_start cont)) 0 c1) pmt_pid c2 (seg_pid (c_stream c))) with OverRead => None | Packets l2 c3 => Some ([p0; p1] ++ l2, mkSt false (set_cc (set_cc (set_cc (st_cc (seg_start cont)) 0 c1) pmt_pid c2) (seg_pid (c_stream c)) c3)) end end) with None => None | Some (a, s) => match seg_adds g s l with None => None | Some (b, s0) => Some (a ++ b, s0) end end = Some (p0 :: p1 :: fst rest, snd rest)).
  { clear - E0. destruct (call_unit g c) as [[[[u rai] pcr]|]|]; [| |discriminate E0].
    - destruct (output_ts (seg_pid (c_stream c)) (u_bytes u) rai pcr _) as [l2 c3|]; [|discriminate E0]. match goal with |- context [seg_adds g ?s l] => destruct (seg_adds g s l) as [[b s0]|] end; [|discriminate E0]. exists (l2 ++ b, s0). cbn [fst snd app]. rewrite <- ?app_assoc. reflexivity.
    - match goal with |- context [seg_adds g ?s l] => destruct (seg_adds g s l) as [[b s0]|] end; [|discriminate E0]. exists (b, s0). reflexivity. }
  destruct GO as ([rest st] & GO). cbv zeta in *. rewrite GO in *. cbn [fst snd] in *. destruct fill.
  - destruct (stuff 0 (g_streams g) (st_cc st)) as [[b cc']|] eqn:ST; [|discriminate E0]. exists (rest ++ b), crc. split; [reflexivity|]. split; [exact (L8 _ _ RD)|]. split; [exact (L8 _ _ RD2)|]. exact (RB 1%nat ltac:(lia)).
  - exists rest, crc. split; [reflexivity|]. split; [exact (L8 _ _ RD)|]. split; [exact (L8 _ _ RD2)|]. exact (RB 1%nat ltac:(lia)).
Qed.
