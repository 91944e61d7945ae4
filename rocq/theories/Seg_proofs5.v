(** Proofs for Seg_model: HLS times; continuity counters; streams left out of the tables *)
From Coq Require Import ZifyNat.
From Verif Require Import Util Bits_spec SampleTab_model SampleTab_proofs Box_model Box_proofs TsTime_model Ts_model Es_model Es_proofs Ts_proofs Ts_proofs2 Ts_proofs3 Ts_proofs4 Crc_model TsSect_model TsSect_proofs TsSect_proofs3 TsDemux_model TsDemux_proofs Ts_proofs5 TsDemux_proofs2 TsDemux_proofs3 TsDemux_props Seg_model Seg_proofs Seg_proofs2 Seg_proofs3 Seg_proofs4.
Local Open Scope Z_scope.
Local Ltac Zify.zify_post_hook ::= Z.div_mod_to_equations.

(** * HLS times *)
Definition eqm (c d : call) : Prop := c_stream c = c_stream d /\ c_body c = c_body d /\ c_key c = c_key d /\ u64 (c_comp c) = u64 (c_comp d) /\ u64 (c_dec c) = u64 (c_dec d).
Lemma u64_add : forall a b p, u64 a = u64 b -> u64 (a + p) = u64 (b + p). Proof. unfold u64. intros a b p H. rewrite Z.add_mod, H, <- Z.add_mod by lia. reflexivity. Qed.
Lemma unit_eqm : forall g c d, eqm c d -> call_unit g c = call_unit g d.
Proof. intros g c d (A & B & C & D & E). unfold call_unit. rewrite A, B, C, (u64_add _ _ (g_present g) D), (u64_add _ _ (g_decode g) E). reflexivity. Qed.
Lemma adds_eqm : forall g l m s, Forall2 eqm l m -> seg_adds g s l = seg_adds g s m.
Proof.
  intros g l m s F. revert s. induction F as [|c d l m H F IH]; intros s; [reflexivity|]. cbn [seg_adds].
  assert (E : seg_add g s c = seg_add g s d) by (unfold seg_add, tables_due; rewrite (unit_eqm g c d H); destruct H as (-> & _ & -> & _); reflexivity).
  rewrite E. destruct (seg_add g s d) as [[a s']|]; [|reflexivity]. rewrite IH. reflexivity.
Qed.
Lemma segment_eqm : forall g cont l m fill, Forall2 eqm l m -> segment g cont l fill = segment g cont m fill.
Proof. intros g cont l m fill F. unfold segment. rewrite (adds_eqm g l m _ F). reflexivity. Qed.
Lemma u64_idem : forall a, u64 (u64 a) = u64 a. Proof. intros a. unfold u64. apply Z.mod_mod. lia. Qed.
Lemma u64_u64_add : forall a b, u64 (a + u64 b) = u64 (a + b). Proof. intros a b. unfold u64. apply Zplus_mod_idemp_r. Qed.
Lemma hls_rest : forall b d l, u64 d <> int64_max -> Forall2 eqm (hls_calls (mkHls b (u64 d)) l) (map (moved d) l).
Proof.
  intros b d l N. induction l as [|c l IH]; [constructor|]. cbn [hls_calls map]. unfold hls_call. cbn [h_offset h_base].
  destruct (Z.eqb_spec (u64 d) int64_max); [congruence|]. cbn [h_offset]. constructor; [|exact IH].
  unfold eqm, moved. cbn [c_stream c_body c_key c_comp c_dec]. rewrite !u64_idem. repeat split; [apply u64_u64_add|].
  replace (c_comp c + u64 d - u64 (c_comp c - c_dec c)) with (- u64 (c_comp c - c_dec c) + (c_comp c + u64 d)) by lia. unfold u64. 
  rewrite <- (Zplus_mod_idemp_r (c_comp c + _)), (Zplus_mod_idemp_r d), Zplus_mod_idemp_r.
  replace (- ((c_comp c - c_dec c) mod 2 ^ 64) + (c_comp c + d)) with ((c_comp c + d) - (c_comp c - c_dec c) mod 2 ^ 64) by lia. rewrite Zminus_mod_idemp_r. f_equal. lia.
Qed.
Lemma hls_all : forall b c l, 0 <= b < int64_max -> 0 <= c_comp c < 2 ^ 63 -> Forall2 eqm (hls_calls (hls_start (Some b)) (c :: l)) (map (moved (b - c_comp c)) (c :: l)).
Proof.
  intros b c l Hb Hc. assert (N : u64 (b - c_comp c) <> int64_max).
  { unfold u64, int64_max in *. intros E. destruct (Z.leb_spec (c_comp c) b); [rewrite Z.mod_small in E by lia; lia|]. rewrite <- (Z.mod_add _ 1), Z.mod_small in E by lia. lia. }
  pose proof (hls_rest b (b - c_comp c) (c :: l) N) as R. cbn [hls_calls hls_start] in *. unfold hls_call in *. cbn [h_offset h_base] in *. rewrite Z.eqb_refl. destruct (Z.eqb_spec (u64 (b - c_comp c)) int64_max); [congruence|]. exact R.
Qed.
Lemma hls_unset : forall l, Forall2 eqm (hls_calls (hls_start None) l) l.
Proof.
  intros l. pose proof (hls_rest 0 0 l) as R. change (u64 0) with 0 in R. change (hls_start None) with (mkHls 0 0). specialize (R ltac:(discriminate)). assert (E : map (moved 0) l = l) by (rewrite <- (map_id l) at 2; apply map_ext; intros []; unfold moved; cbn; f_equal; lia). rewrite E in R. exact R.
Qed.

(** * Continuity counters *)
Definition runs (c : Z) (n : nat) : list Z := map (fun k => (c + Z.of_nat k) mod 16) (seq 0 n).
(** from counters [cc], the packets are continuous and leave the counters [cc'] *)
Definition goes (cc : Z -> Z) (ps : list (list Z)) (cc' : Z -> Z) : Prop := forall pid, counters pid ps = runs (cc pid) (length (counters pid ps)) /\ cc' pid mod 16 = (cc pid + zlen (counters pid ps)) mod 16.
Lemma counters_app : forall pid a b, counters pid (a ++ b) = counters pid a ++ counters pid b. Proof. intros. unfold counters. rewrite filter_app, map_app. reflexivity. Qed.
Lemma runs_app : forall n c m, runs c (n + m) = runs c n ++ runs (c + Z.of_nat n) m.
Proof.
  intros n c m. unfold runs. rewrite seq_app, map_app. f_equal. cbn [Nat.add]. generalize n. clear n. intros n. change (seq n m) with (seq (0 + n) m). replace (seq (0 + n) m) with (map (fun k => (k + n)%nat) (seq 0 m)).
  - rewrite map_map. apply map_ext. intros k. f_equal. lia.
  - clear. generalize 0%nat. induction m as [|m IH]; intros a; [reflexivity|]. cbn [seq map]. f_equal. rewrite IH. f_equal.
Qed.
Lemma runs_mod : forall c d n, c mod 16 = d mod 16 -> runs c n = runs d n.
Proof. intros c d n H. unfold runs. apply map_ext. intros k. rewrite Z.add_mod, H, <- Z.add_mod by lia. reflexivity. Qed.
Lemma goes_nil : forall cc, goes cc [] cc. Proof. intros cc pid. split; [reflexivity|]. change (counters pid []) with (@nil Z). change (zlen (@nil Z)) with 0. rewrite Z.add_0_r. reflexivity. Qed.
Lemma goes_app : forall a b c ps qs, goes a ps b -> goes b qs c -> goes a (ps ++ qs) c.
Proof.
  intros a b c ps qs P Q pid. destruct (P pid) as [P1 P2]. destruct (Q pid) as [Q1 Q2]. rewrite counters_app. split.
  - rewrite app_length, runs_app, <- P1. f_equal. rewrite Q1 at 1. apply runs_mod. exact P2.
  - rewrite zlen_app, Q2. rewrite Z.add_mod, P2, <- Z.add_mod by lia. f_equal. lia.
Qed.
Lemma nth_error_same : forall A (l m : list A), (forall i, nth_error l i = nth_error m i) -> l = m.
Proof. induction l as [|x l IH]; intros [|y m] H; [reflexivity|discriminate (H 0%nat)|discriminate (H 0%nat)|]. f_equal; [pose proof (H 0%nat) as Q; injection Q; auto|]. apply IH. intros i. exact (H (S i)). Qed.
(** packets of one PID *)
Lemma goes_pid : forall pid cc ps c, Forall (fun p => iso_pid p = pid) ps -> (forall i p, nth_error ps i = Some p -> iso_cc p = (cc pid + Z.of_nat i) mod 16) -> c mod 16 = (cc pid + zlen ps) mod 16 -> goes cc ps (set_cc cc pid c).
Proof.
  intros pid cc ps c F H E q. unfold set_cc. destruct (Z.eqb_spec q pid) as [Q|NE].
  - subst q. assert (K : counters pid ps = map iso_cc ps) by (unfold counters; f_equal; clear - F; induction F as [|p ps H F IH]; [reflexivity|]; cbn [filter]; rewrite H, Z.eqb_refl, IH; reflexivity).
    rewrite K. unfold zlen. rewrite map_length. split; [|exact E]. clear - H. unfold runs. apply nth_error_same. intros i. rewrite !nth_error_map. cbn [option_map]. destruct (nth_error ps i) as [p|] eqn:N.
    + assert (L : (i < length ps)%nat) by (apply nth_error_Some; congruence). rewrite (nth_error_nth' _ 0%nat) by (rewrite seq_length; exact L). rewrite seq_nth by exact L. cbn [option_map Nat.add]. f_equal. exact (H i p N).
    + apply nth_error_None in N. rewrite (proj2 (nth_error_None _ _)) by (rewrite seq_length; exact N). reflexivity.
  - assert (K : counters q ps = []) by (unfold counters; clear - F NE; induction F as [|p ps H F IH]; [reflexivity|]; cbn [filter]; rewrite H; destruct (Z.eqb_spec pid q); [congruence|exact IH]).
    rewrite K. split; [reflexivity|]. change (zlen (@nil Z)) with 0. rewrite Z.add_0_r. reflexivity.
Qed.

Lemma mod_256_16 : forall a, (a mod 256) mod 16 = a mod 16. Proof. intros a. lia. Qed.
Lemma unit_goes : forall pid x cc l c, 0 <= pid < 8192 -> cc_ok cc -> unit_fits x -> output_ts pid (u_bytes (fst (fst x))) (snd (fst x)) (snd x) (cc pid) = Packets l c -> goes cc l (set_cc cc pid c).
Proof.
  intros pid [[u rai] pcr] cc l c Hp OK (Hu & Hb & Hf & Hx) E. cbn [fst snd] in *.
  destruct (output_ts_spec pid (u_bytes u) rai pcr (cc pid) Hp (u_bytes_bytes u Hb) (OK pid) Hf Hx) as (p1 & l' & c' & E' & I & _ & _ & _ & _ & _ & _ & CN & C & _). rewrite E in E'. injection E' as -> ->.
  apply goes_pid; [eapply Forall_impl; [|exact I]; intros p (_ & _ & _ & P & _); exact P|exact CN|rewrite C; apply mod_256_16].
Qed.
Lemma table_goes : forall pid data cc l c, 0 <= pid < 8192 -> cc_ok cc -> bytes data -> zlen data <= 184 -> output_ts pid data false None (cc pid) = Packets l c -> goes cc l (set_cc cc pid c) /\ c = (cc pid + 1) mod 256.
Proof.
  intros pid data cc l c Hp OK Hb Hl E. destruct (output_ts_spec pid data false None (cc pid) Hp Hb (OK pid) I ltac:(discriminate)) as (p1 & l' & c' & E' & I & _ & _ & _ & _ & _ & _ & CN & C & _).
  destruct (output_one pid data (cc pid) Hl _ _ E) as [q Eq]. rewrite E in E'. injection E' as -> ->. injection Eq as -> ->. split; [|exact C].
  apply goes_pid; [eapply Forall_impl; [|exact I]; intros p (_ & _ & _ & P & _); exact P|exact CN|rewrite C; apply mod_256_16].
Qed.
Lemma fill_goes : forall pid cc l c, 0 <= pid < 8192 -> cc_ok cc -> fill_pid pid (cc pid) = Some (l, c) -> goes cc l (set_cc cc pid c) /\ c mod 16 = 0.
Proof.
  intros pid cc l c Hp OK E. destruct (fill_ok pid (cc pid) Hp (OK pid)) as (l' & c' & E' & C & M & _ & F). rewrite E in E'. injection E' as <- <-. split; [|exact M].
  apply goes_pid; [|intros i p N; exact (it_cc _ _ _ _ _ _ _ (F i p N))|rewrite C; apply mod_256_16].
  - apply Forall_forall. intros p Hin. apply In_nth_error in Hin as [i Hi]. destruct (F i p Hi) as [(_ & _ & _ & P & _) _]. exact P.
Qed.
Lemma tables_goes : forall g cc ps cc', all_carried g -> cc_ok cc -> put_tables g cc = Some (ps, cc') -> goes cc ps cc' /\ cc' 0 = (cc 0 + 1) mod 256 /\ cc' pmt_pid = (cc pmt_pid + 1) mod 256 /\ (forall q, q <> 0 -> q <> pmt_pid -> cc' q = cc q).
Proof.
  intros g cc ps cc' A OK E. unfold put_tables in E. fold (pat_data g) in E. fold (pmt_data g) in E. destruct (pat_facts g) as (B1 & B2 & B3). destruct (pmt_facts g A) as (C1 & C2 & C3).
  destruct (output_ts 0 (pat_data g) false None (cc 0)) as [l1 c1|] eqn:E1; [|discriminate E]. destruct (table_goes 0 (pat_data g) cc l1 c1 ltac:(lia) OK B1 B3 E1) as [G1 ->].
  assert (OK1 : cc_ok (set_cc cc 0 ((cc 0 + 1) mod 256))) by (apply set_cc_ok; [exact OK|lia]).
  destruct (output_ts pmt_pid (pmt_data g) false None (set_cc cc 0 ((cc 0 + 1) mod 256) pmt_pid)) as [l2 c2|] eqn:E2; [|discriminate E]. destruct (table_goes pmt_pid (pmt_data g) _ l2 c2 ltac:(unfold pmt_pid; lia) OK1 C1 C3 E2) as [G2 ->]. injection E as <- <-.
  split; [eapply goes_app; eassumption|]. unfold set_cc. cbn [Z.eqb pmt_pid Pos.eqb]. split; [reflexivity|]. split; [reflexivity|]. intros q N1 N2. change 0x1000 with pmt_pid. destruct (Z.eqb_spec q pmt_pid); [congruence|]. destruct (Z.eqb_spec q 0); [congruence|reflexivity].
Qed.
Definition elsewhere (n : nat) (q : Z) : Prop := forall i, (i < n)%nat -> q <> seg_pid i.
Lemma add_goes : forall g s c ps s', all_carried g -> cc_ok (st_cc s) -> call_good g c -> seg_add g s c = Some (ps, s') -> goes (st_cc s) ps (st_cc s') /\ cc_ok (st_cc s') /\ st_first s' = false
  /\ (g_once g = true -> forall q, elsewhere (length (g_streams g)) q -> st_cc s' q = if st_first s && ((q =? 0) || (q =? pmt_pid)) then (st_cc s q + 1) mod 256 else st_cc s q).
Proof.
  intros g s c ps s' A OK (CU & UF & LT) E. unfold seg_add in E.
  assert (T : exists l1 cc1, (if tables_due g s c then put_tables g (st_cc s) else Some ([], st_cc s)) = Some (l1, cc1) /\ goes (st_cc s) l1 cc1 /\ cc_ok cc1 /\ (g_once g = true -> forall q, cc1 q = if st_first s && ((q =? 0) || (q =? pmt_pid)) then (st_cc s q + 1) mod 256 else st_cc s q)).
  { destruct (tables_due g s c) eqn:D.
    - destruct (tables_pieces g (st_cc s) A OK) as (p1 & p2 & cc' & PT & _ & _ & OK'). rewrite PT. exists (p1 ++ p2), cc'. split; [reflexivity|]. destruct (tables_goes g _ _ _ A OK PT) as (G & Z0 & Z1 & Z2). split; [exact G|]. split; [exact OK'|]. intros Q q. unfold tables_due in D. rewrite Q in D. cbn [negb andb] in D. rewrite orb_false_r in D. rewrite D. cbn [andb].
      destruct (Z.eqb_spec q 0) as [->|N]; [exact Z0|]. destruct (Z.eqb_spec q pmt_pid) as [->|N']; [exact Z1|]. exact (Z2 q N N').
    - exists [], (st_cc s). split; [reflexivity|]. split; [apply goes_nil|]. split; [exact OK|]. intros _ q. unfold tables_due in D. apply orb_false_iff in D as [-> _]. reflexivity. }
  destruct T as (l1 & cc1 & T & G1 & OK1 & Q1). rewrite T in E. rewrite CU in E. destruct (cu g c) as [[u rai] pcr] eqn:EC.
  assert (Hp : 0 <= seg_pid (c_stream c) < 8192) by (destruct A as [_ A]; unfold seg_pid; lia).
  destruct (unit_piece (seg_pid (c_stream c)) (u, rai, pcr) (cc1 (seg_pid (c_stream c))) Hp (OK1 _) UF) as (l & c2 & E2 & _ & R). pose proof (unit_goes _ (u, rai, pcr) cc1 l c2 Hp OK1 UF E2) as G2. cbn [fst snd] in E2. rewrite E2 in E. injection E as <- <-. cbn [st_cc st_first].
  split; [eapply goes_app; eassumption|]. split; [apply set_cc_ok; assumption|]. split; [reflexivity|]. intros Q q EL. unfold set_cc. destruct (Z.eqb_spec q (seg_pid (c_stream c))) as [->|N]; [destruct (EL _ LT); reflexivity|]. exact (Q1 Q q).
Qed.
Lemma adds_goes : forall g l s ps s', all_carried g -> cc_ok (st_cc s) -> Forall (call_good g) l -> seg_adds g s l = Some (ps, s') -> goes (st_cc s) ps (st_cc s') /\ cc_ok (st_cc s')
  /\ (g_once g = true -> forall q, elsewhere (length (g_streams g)) q -> st_cc s' q = if st_first s && negb (match l with [] => true | _ => false end) && ((q =? 0) || (q =? pmt_pid)) then (st_cc s q + 1) mod 256 else st_cc s q).
Proof.
  intros g l. induction l as [|c l IH]; intros s ps s' A OK F E; cbn [seg_adds] in E.
  - injection E as <- <-. split; [apply goes_nil|]. split; [exact OK|]. intros _ q _. rewrite andb_false_r. reflexivity.
  - inversion F as [|? ? F1 F2]; subst. destruct (seg_add g s c) as [[a s1]|] eqn:E1; [|discriminate E]. destruct (seg_adds g s1 l) as [[b s2]|] eqn:E2; [|discriminate E]. injection E as <- <-.
    destruct (add_goes g s c a s1 A OK F1 E1) as (G1 & OK1 & FF & Q1). destruct (IH s1 b s2 A OK1 F2 E2) as (G2 & OK2 & Q2). split; [eapply goes_app; eassumption|]. split; [exact OK2|]. intros Q q EL. rewrite (Q2 Q q EL), FF. cbn [andb]. rewrite (Q1 Q q EL). cbn [negb]. rewrite andb_true_r. reflexivity.
Qed.
Lemma stuff_goes : forall ss i cc ps cc', cc_ok cc -> (i + length ss <= 3840)%nat -> stuff i ss cc = Some (ps, cc') -> goes cc ps cc' /\ (forall k, (i <= k < i + length ss)%nat -> cc' (seg_pid k) mod 16 = 0) /\ (forall q, (forall k, (i <= k < i + length ss)%nat -> q <> seg_pid k) -> cc' q = cc q).
Proof.
  induction ss as [|s ss IH]; intros i cc ps cc' OK L E; cbn [stuff length] in *.
  - injection E as <- <-. split; [apply goes_nil|]. split; [intros; lia|]. reflexivity.
  - assert (Hp : 0 <= seg_pid i < 8192) by (unfold seg_pid; lia). destruct (fill_piece (seg_pid i) (cc (seg_pid i)) Hp (OK _)) as (l & c & E1 & _ & C). rewrite E1 in E. destruct (fill_goes _ _ _ _ Hp OK E1) as [G1 M].
    destruct (stuff (S i) ss (set_cc cc (seg_pid i) c)) as [[b cc2]|] eqn:E2; [|discriminate E]. injection E as <- <-. destruct (IH (S i) _ _ _ (set_cc_ok _ _ _ OK C) ltac:(lia) E2) as (G2 & Z2 & O2). split; [eapply goes_app; eassumption|]. split.
    + intros k Hk. destruct (Nat.eq_dec k i) as [->|N]; [|apply Z2; lia]. rewrite O2 by (intros j Hj; unfold seg_pid; lia). unfold set_cc. rewrite Z.eqb_refl. exact M.
    + intros q Hq. rewrite O2 by (intros k Hk; apply Hq; lia). unfold set_cc. destruct (Z.eqb_spec q (seg_pid i)) as [->|_]; [|reflexivity]. destruct (Hq i ltac:(lia)). reflexivity.
Qed.
Lemma runs_successive : forall c n, successive (runs c n).
Proof.
  intros c n i a b A B. unfold runs in *. rewrite nth_error_map in A, B. assert (L : (S i < n)%nat) by (rewrite <- (seq_length n 0); apply nth_error_Some; destruct (nth_error (seq 0 n) (S i)); [congruence|discriminate B]).
  rewrite (nth_error_nth' _ 0%nat) in A by (rewrite seq_length; lia). rewrite (nth_error_nth' _ 0%nat) in B by (rewrite seq_length; lia). rewrite seq_nth in A by lia. rewrite seq_nth in B by lia. cbn [option_map] in A, B. injection A as <-. injection B as <-. lia.
Qed.
Lemma goes_successive : forall cc ps cc' pid, goes cc ps cc' -> successive (counters pid ps). Proof. intros cc ps cc' pid G. destruct (G pid) as [-> _]. apply runs_successive. Qed.
Lemma start_at : forall a q, st_cc (seg_start a) q = if q =? pmt_pid then a else if q =? 0 then a else 0. Proof. reflexivity. Qed.
(** a segment: its packets, and where the counters start and end *)
Lemma segment_goes : forall g cont l fill, segment_ok g l -> 0 <= cont < 256 -> exists ps cc', segment g cont l fill = Some (concat ps) /\ Forall (fun p => length p = 188%nat) ps /\ goes (st_cc (seg_start cont)) ps cc'
  /\ (g_once g = true -> fill = true -> forall q, cc' q mod 16 = st_cc (seg_start (cont + 1)) q mod 16).
Proof.
  intros g cont l fill OK C. pose proof OK as (SO & LE & CO & _ & NE). pose proof (carried_ok g SO LE) as A. pose proof (good_calls g l SO CO) as GC. pose proof (start_ok cont C) as K0.
  destruct (adds_pieces g l (seg_start cont) A K0 GC) as (ks & pk & s' & E & P & OKs & _). destruct (adds_goes g l _ _ _ A K0 GC E) as (G & OK' & Q). unfold segment. rewrite E.
  assert (L8 : forall ks pk, Forall2 piece_ok ks pk -> Forall (fun p => length p = 188%nat) (concat pk)).
  { clear. intros ks pk P. apply Forall_concat_packets. induction P as [|k ps ks pk H P IH]; constructor; [|exact IH]. apply piece_readable in H. eapply Forall_impl; [|exact H]. intros p [(L & _) _]. exact L. }
  destruct fill.
  - destruct (stuff_pieces (g_streams g) 0 (st_cc s') OKs ltac:(lia)) as (pf & cc' & E2 & kf & PF & KF). rewrite E2. destruct (stuff_goes (g_streams g) 0 (st_cc s') (concat pf) cc' OKs ltac:(lia) E2) as (G2 & Z2 & O2). exists (concat pk ++ concat pf), cc'. split; [reflexivity|]. split; [apply Forall_app; split; eapply L8; eassumption|]. split; [eapply goes_app; eassumption|].
    intros ON _ q. assert (DEC : (exists k, (k < length (g_streams g))%nat /\ q = seg_pid k) \/ elsewhere (length (g_streams g)) q).
    { destruct (Z.leb_spec 0x100 q); [|right; intros i _; unfold seg_pid; lia]. destruct (Z.ltb_spec q (0x100 + Z.of_nat (length (g_streams g)))); [left; exists (Z.to_nat (q - 0x100)); unfold seg_pid; lia|right; intros i Hi; unfold seg_pid; lia]. }
    destruct DEC as [(k & Hk & ->)|EL].
    + rewrite Z2 by lia. unfold seg_start, set_cc, seg_pid, pmt_pid. cbn [st_cc]. destruct (Z.eqb_spec (0x100 + Z.of_nat k) 0x1000); [lia|]. destruct (Z.eqb_spec (0x100 + Z.of_nat k) 0); [lia|]. reflexivity.
    + rewrite O2 by (intros k Hk; apply EL; lia). rewrite (Q ON q EL). destruct l as [|c l]; [congruence|]. rewrite !start_at. change (st_first (seg_start cont)) with true. cbn [negb andb]. destruct (Z.eqb_spec q pmt_pid) as [->|N1]; [rewrite orb_true_r; apply mod_256_16|]. destruct (Z.eqb_spec q 0) as [->|N2]; [cbn [orb]; apply mod_256_16|]. reflexivity.
  - exists (concat pk), (st_cc s'). split; [reflexivity|]. split; [eapply L8; exact P|]. split; [exact G|]. discriminate.
Qed.
Lemma goes_weak : forall cc ps a b, goes cc ps a -> (forall q, a q mod 16 = b q mod 16) -> goes cc ps b. Proof. intros cc ps a b G H q. destruct (G q) as [G1 G2]. split; [exact G1|]. rewrite <- H. exact G2. Qed.
Lemma goes_from : forall a b ps cc, goes a ps cc -> (forall q, a q mod 16 = b q mod 16) -> goes b ps cc.
Proof. intros a b ps cc G H q. destruct (G q) as [G1 G2]. split; [rewrite G1 at 1; apply runs_mod; apply H|]. rewrite G2, Z.add_mod, H, <- Z.add_mod by lia. reflexivity. Qed.
Lemma start_mod : forall a b q, a mod 16 = b mod 16 -> st_cc (seg_start a) q mod 16 = st_cc (seg_start b) q mod 16. Proof. intros a b q H. rewrite !start_at. destruct (q =? pmt_pid); [exact H|]. destruct (q =? 0); [exact H|reflexivity]. Qed.
(** successive segments *)
Lemma segments_goes : forall ss bs n, Forall (fun x => segment_ok (fst x) (snd x) /\ g_once (fst x) = true) ss -> 0 <= n ->
  Forall2 (fun kx b => segment (fst (snd kx)) ((n + Z.of_nat (fst kx)) mod 256) (snd (snd kx)) true = Some b) (combine (seq 0 (length ss)) ss) bs ->
  exists ps cc', concat bs = concat ps /\ Forall (fun p => length p = 188%nat) ps /\ goes (st_cc (seg_start n)) ps cc'.
Proof.
  induction ss as [|[g l] ss IH]; intros bs n F N H; cbn [length seq combine] in H.
  - inversion H; subst. exists [], (st_cc (seg_start n)). split; [reflexivity|]. split; [constructor|apply goes_nil].
  - inversion H as [|? b ? bs' H1 H2]; subst. inversion F as [|? ? [F1 F2] F3]; subst. cbn [fst snd] in *. rewrite Z.add_0_r in H1. destruct (segment_goes g (n mod 256) l true F1 ltac:(lia)) as (ps & cc' & E & L & G & M). rewrite E in H1. injection H1 as <-.
    assert (H3 : Forall2 (fun kx b => segment (fst (snd kx)) ((n + 1 + Z.of_nat (fst kx)) mod 256) (snd (snd kx)) true = Some b) (combine (seq 0 (length ss)) ss) bs').
    { clear - H2. rewrite <- seq_shift in H2. revert bs' H2. generalize (seq 0 (length ss)). induction ss as [|x ss IH]; intros [|k s] bs H; cbn [map combine] in *; inversion H; subst; constructor; [|apply IH; assumption]. cbn [fst snd] in *. replace (n + 1 + Z.of_nat k) with (n + Z.of_nat (S k)) by lia. assumption. }
    destruct (IH bs' (n + 1) F3 ltac:(lia) H3) as (qs & cc'' & E2 & L2 & G2). exists (ps ++ qs), cc''. split; [cbn [concat]; rewrite E2, concat_app; reflexivity|]. split; [apply Forall_app; split; assumption|].
    eapply goes_app; [|exact G2]. eapply goes_from; [eapply goes_weak; [exact G|intros q; rewrite (M F2 eq_refl q); apply start_mod; lia]|intros q; apply start_mod; lia].
Qed.
