(** Proofs for Seg_model: a segment is a transport stream with its units *)
From Coq Require Import ZifyNat.
From Verif Require Import Util Bits_spec SampleTab_model Box_model TsTime_model Ts_model Es_model Ts_proofs Ts_proofs2 Ts_proofs3 Ts_proofs4 Crc_model Crc_proofs Crc_proofs2 TsSect_model TsSect_proofs TsSect_proofs2 TsSect_proofs3 TsSect_props TsDemux_model TsDemux_proofs Ts_proofs5 TsDemux_proofs2 TsDemux_proofs3 Seg_model Seg_proofs.
Local Open Scope Z_scope.
Local Ltac Zify.zify_post_hook ::= Z.div_mod_to_equations.

(** * Tables *)
Definition type_of (s : strm) : Z := match s with SVideo _ _ => 0x1b | _ => 0x0f end.
Definition all_carried (g : config) : Prop := Forall (fun s => carried s = true) (g_streams g) /\ (length (g_streams g) <= 33)%nat.
Lemma slots_length : forall junk l i, length (pmt_slots junk i l) = length l. Proof. induction l as [|s l IH]; intros i; [reflexivity|]. cbn [pmt_slots length]. f_equal. apply IH. Qed.
Lemma entries_all : forall g, all_carried g -> pmt_entries g = pmt_slots (g_junk g) 0 (g_streams g).
Proof. intros g [F _]. unfold pmt_entries. rewrite filter_every by exact F. rewrite <- (slots_length (g_junk g) (g_streams g) 0). apply firstn_all. Qed.
Lemma slots_in : forall junk l i e, Forall (fun s => carried s = true) l -> In e (pmt_slots junk i l) <-> exists k s, nth_error l k = Some s /\ e = (type_of s, seg_pid (i + k)).
Proof.
  induction l as [|s l IH]; intros i e F; cbn [pmt_slots In].
  - split; [tauto|]. intros ([|k] & s & H & _); discriminate H.
  - inversion F as [|? ? F1 F2]; subst. rewrite IH by exact F2. assert (SL : pmt_slot junk i s = (type_of s, seg_pid i)) by (destruct s; [reflexivity|reflexivity|discriminate F1]). rewrite SL. split.
    + intros [<-|(k & s' & H & ->)]; [exists 0%nat, s; split; [reflexivity|rewrite Nat.add_0_r; reflexivity]|]. exists (S k), s'. split; [exact H|]. do 2 f_equal. lia.
    + intros ([|k] & s' & H & ->); [injection H as <-; left; rewrite Nat.add_0_r; reflexivity|]. right. exists k, s'. split; [exact H|]. do 2 f_equal. lia.
Qed.
Lemma slots_nodup : forall junk l i, Forall (fun s => carried s = true) l -> NoDup (map snd (pmt_slots junk i l)).
Proof.
  induction l as [|s l IH]; intros i F; cbn [pmt_slots map]; [constructor|]. inversion F as [|? ? F1 F2]; subst. constructor; [|apply IH; exact F2]. intros H. apply in_map_iff in H as (e & E & I). apply (slots_in junk l (S i) e F2) in I as (k & s' & _ & ->). cbn [snd] in E.
  destruct s; try discriminate F1; cbn [pmt_slot snd] in E; unfold seg_pid in E; lia.
Qed.
Lemma seg_entry_ok : forall g, all_carried g -> Forall (fun s => is_byte (fst s) /\ pid_ok (snd s)) (pmt_entries g) /\ zlen (pmt_entries g) <= 33 /\ pid_ok (pcr_pid_of g).
Proof.
  intros g [F L]. rewrite entries_all by (split; assumption). split; [|split].
  - apply Forall_forall. intros e I. apply slots_in in I as (k & s & H & ->); [|exact F]. cbn [fst snd]. assert (k < length (g_streams g))%nat by (apply nth_error_Some; congruence). split; [destruct s; unfold is_byte; cbn; lia|unfold pid_ok, seg_pid; lia].
  - unfold zlen. rewrite slots_length. lia.
  - unfold pcr_pid_of. assert (B : forall l i j, first_video i l = Some j -> (j < i + length l)%nat).
    { clear. induction l as [|s l IH]; intros i j H; [discriminate H|]. cbn [first_video length] in *. destruct s; [injection H as <-; lia|apply IH in H; lia|apply IH in H; lia]. }
    destruct (first_video 0 (g_streams g)) as [j|] eqn:E; [|unfold pid_ok; lia]. apply B in E. unfold pid_ok, seg_pid. lia.
Qed.
Definition pat_data (g : config) := write_pat (g_align g) (g_r2 g) (g_r3 g) [(1, pmt_pid)].
Definition pmt_data (g : config) := write_pmt (g_align g) (g_r2 g) 1 (pcr_pid_of g) (pmt_entries g).
Lemma pat_facts : forall g, bytes (pat_data g) /\ pat_data g <> [] /\ zlen (pat_data g) <= 184.
Proof.
  intros g. assert (H : Forall (fun p => w16 (fst p) /\ pid_ok (snd p)) [(1, pmt_pid)]) by (constructor; [split; [unfold w16; cbn; lia|unfold pid_ok, pmt_pid; cbn; lia]|constructor]).
  destruct (write_pat_eq (g_align g) (g_r2 g) (g_r3 g) [(1, pmt_pid)] ltac:(cbn; lia) H) as [E B]. unfold pat_data. set (sec := iso_section _ _ _ _ _ _ _) in *. rewrite E. split; [|split].
  - apply bytes_cons; split; [unfold is_byte; lia|]. apply bytes_app; split; [exact B|apply be32_bytes].
  - discriminate.
  - rewrite zlen_cons, zlen_app. unfold sec at 1. rewrite zlen_section, zlen_programs. change (zlen (be32 (crc_spec sec))) with 4. cbn. lia.
Qed.
Lemma pmt_facts : forall g, all_carried g -> bytes (pmt_data g) /\ pmt_data g <> [] /\ zlen (pmt_data g) <= 184.
Proof.
  intros g A. destruct (seg_entry_ok g A) as (E1 & E2 & E3). destruct (write_pmt_eq (g_align g) (g_r2 g) 1 (pcr_pid_of g) (pmt_entries g) ltac:(lia) ltac:(unfold w16; lia) E3 E1) as [E B]. unfold pmt_data. set (sec := iso_section _ _ _ _ _ _ _) in *. rewrite E. split; [|split].
  - apply bytes_cons; split; [unfold is_byte; lia|]. apply bytes_app; split; [exact B|apply be32_bytes].
  - discriminate.
  - rewrite zlen_cons, zlen_app. unfold sec at 1. rewrite zlen_section. rewrite zlen_pmt_body, zlen_streams. change (zlen (be32 (crc_spec sec))) with 4. change (zlen (iso_descriptors [])) with 0. lia.
Qed.
Lemma tables_pieces : forall g cc, all_carried g -> cc_ok cc -> exists p1 p2 cc', put_tables g cc = Some (p1 ++ p2, cc') /\ piece_ok (KTab 0 (pat_data g)) p1 /\ piece_ok (KTab pmt_pid (pmt_data g)) p2 /\ cc_ok cc'.
Proof.
  intros g cc A OK. unfold put_tables. fold (pat_data g). fold (pmt_data g). destruct (pat_facts g) as (B1 & B2 & B3). destruct (pmt_facts g A) as (C1 & C2 & C3).
  destruct (table_piece 0 (pat_data g) (cc 0) ltac:(lia) (OK 0) B1 B2 B3) as (l1 & c1 & -> & P1 & R1). pose proof (set_cc_ok cc 0 c1 OK R1) as OK1.
  destruct (table_piece pmt_pid (pmt_data g) (set_cc cc 0 c1 pmt_pid) ltac:(unfold pmt_pid; lia) (OK1 _) C1 C2 C3) as (l2 & c2 & -> & P2 & R2). exists l1, l2. eexists. split; [reflexivity|]. split; [exact P1|]. split; [exact P2|]. apply set_cc_ok; assumption.
Qed.

(** * Samples *)
Definition no_unit : unit_t * bool * option Z := (mkunit 0 0 0 None None None [], false, None).
Definition cu (g : config) (c : call) : unit_t * bool * option Z := match call_unit g c with Some (Some x) => x | _ => no_unit end.
Definition call_good (g : config) (c : call) : Prop := call_unit g c = Some (Some (cu g c)) /\ unit_fits (cu g c) /\ (c_stream c < length (g_streams g))%nat.
Definition ku (pid : Z) (ks : list kind) : list (unit_t * bool * option Z) := flat_map (fun k => match k with KUnit q x => if q =? pid then [x] else [] | _ => [] end) ks.
Definition plain_kind (k : kind) : Prop := match k with KTab q _ => q = 0 \/ q = pmt_pid | _ => True end.
Lemma ku_app : forall pid a b, ku pid (a ++ b) = ku pid a ++ ku pid b. Proof. intros. apply flat_map_app. Qed.
Lemma add_pieces : forall g s c, all_carried g -> cc_ok (st_cc s) -> call_good g c -> exists ks ps s', seg_add g s c = Some (concat ps, s') /\ Forall2 piece_ok ks ps /\ cc_ok (st_cc s') /\ st_first s' = false /\ Forall plain_kind ks
  /\ (forall i, ku (seg_pid i) ks = if Nat.eqb (c_stream c) i then [cu g c] else []) /\ (st_first s = true -> exists ks', ks = KTab 0 (pat_data g) :: KTab pmt_pid (pmt_data g) :: ks').
Proof.
  intros g s c A OK (CU & UF & LT). unfold seg_add.
  assert (T : exists ks ps cc', (if tables_due g s c then put_tables g (st_cc s) else Some ([], st_cc s)) = Some (concat ps, cc') /\ Forall2 piece_ok ks ps /\ cc_ok cc' /\ Forall plain_kind ks /\ (forall pid, ku pid ks = []) /\ (st_first s = true -> ks = [KTab 0 (pat_data g); KTab pmt_pid (pmt_data g)])).
  { destruct (tables_due g s c) eqn:E.
    - destruct (tables_pieces g (st_cc s) A OK) as (p1 & p2 & cc' & -> & P1 & P2 & OK'). exists [KTab 0 (pat_data g); KTab pmt_pid (pmt_data g)], [p1; p2], cc'. cbn [concat]. rewrite app_nil_r. split; [reflexivity|]. split; [constructor; [exact P1|constructor; [exact P2|constructor]]|]. split; [exact OK'|]. split; [constructor; [left; reflexivity|constructor; [right; reflexivity|constructor]]|]. split; reflexivity.
    - exists [], [], (st_cc s). split; [reflexivity|]. split; [constructor|]. split; [exact OK|]. split; [constructor|]. split; [reflexivity|]. intros F. unfold tables_due in E. rewrite F in E. discriminate E. }
  destruct T as (ks & ps & cc' & -> & F & OK' & PK & KU & FI). rewrite CU. destruct (cu g c) as [[u rai] pcr] eqn:EC.
  assert (Hp : 0 <= seg_pid (c_stream c) < 8192) by (destruct A as [_ A]; unfold seg_pid; lia).
  destruct (unit_piece (seg_pid (c_stream c)) (u, rai, pcr) (cc' (seg_pid (c_stream c))) Hp (OK' _) UF) as (l & c2 & E & P & R). cbn [fst snd] in E. rewrite E.
  exists (ks ++ [KUnit (seg_pid (c_stream c)) (u, rai, pcr)]), (ps ++ [l]). eexists. split; [rewrite concat_app; cbn [concat]; rewrite app_nil_r; reflexivity|]. split; [apply Forall2_app; [exact F|constructor; [exact P|constructor]]|].
  split; [cbn [st_cc]; apply set_cc_ok; assumption|]. split; [reflexivity|]. split; [apply Forall_app; split; [exact PK|constructor; [exact I|constructor]]|]. split.
  - intros i. rewrite ku_app, KU. cbn [app ku flat_map]. destruct (Nat.eqb_spec (c_stream c) i) as [Q|NE]; [rewrite Q, Z.eqb_refl; reflexivity|]. destruct (Z.eqb_spec (seg_pid (c_stream c)) (seg_pid i)) as [Q|_]; [unfold seg_pid in Q; lia|]. reflexivity.
  - intros Q. rewrite (FI Q). eexists. reflexivity.
Qed.
Lemma adds_pieces : forall g l s, all_carried g -> cc_ok (st_cc s) -> Forall (call_good g) l -> exists ks ps s', seg_adds g s l = Some (concat ps, s') /\ Forall2 piece_ok ks ps /\ cc_ok (st_cc s') /\ Forall plain_kind ks
  /\ (forall i, ku (seg_pid i) ks = map (cu g) (calls_of i l)) /\ (st_first s = true -> l <> [] -> exists ks', ks = KTab 0 (pat_data g) :: KTab pmt_pid (pmt_data g) :: ks').
Proof.
  intros g l. induction l as [|c l IH]; intros s A OK F; cbn [seg_adds].
  - exists [], [], s. split; [reflexivity|]. split; [constructor|]. split; [exact OK|]. split; [constructor|]. split; [reflexivity|]. congruence.
  - inversion F as [|? ? F1 F2]; subst. destruct (add_pieces g s c A OK F1) as (k1 & p1 & s1 & -> & P1 & OK1 & FF & PK1 & KU1 & T1). destruct (IH s1 A OK1 F2) as (k2 & p2 & s2 & -> & P2 & OK2 & PK2 & KU2 & _).
    exists (k1 ++ k2), (p1 ++ p2), s2. split; [rewrite concat_app; reflexivity|]. split; [apply Forall2_app; assumption|]. split; [exact OK2|]. split; [apply Forall_app; split; assumption|]. split.
    + intros i. rewrite ku_app, KU1, KU2. unfold calls_of. cbn [filter]. destruct (Nat.eqb (c_stream c) i); reflexivity.
    + intros Q _. destruct (T1 Q) as [k ->]. eexists. reflexivity.
Qed.
Lemma start_ok : forall c, 0 <= c < 256 -> cc_ok (st_cc (seg_start c)). Proof. intros c H. cbn [seg_start st_cc]. apply set_cc_ok; [apply set_cc_ok; [intros p; lia|exact H]|exact H]. Qed.
Lemma segment_pieces : forall g cont l fill, all_carried g -> 0 <= cont < 256 -> Forall (call_good g) l -> l <> [] -> exists ks pk, segment g cont l fill = Some (concat (concat pk)) /\ Forall2 piece_ok ks pk
  /\ Forall plain_kind ks /\ (forall i, ku (seg_pid i) ks = map (cu g) (calls_of i l)) /\ exists ks', ks = KTab 0 (pat_data g) :: KTab pmt_pid (pmt_data g) :: ks'.
Proof.
  intros g cont l fill A C F NE. destruct (adds_pieces g l (seg_start cont) A (start_ok cont C) F) as (ks & ps & s' & E & P & OK & PK & KU & T). destruct (T eq_refl NE) as [ks' T']. unfold segment. rewrite E. destruct fill.
  - destruct (stuff_pieces (g_streams g) 0 (st_cc s') OK ltac:(destruct A; lia)) as (pf & cc' & -> & kf & PF & KF). exists (ks ++ kf), (ps ++ pf). split; [rewrite (concat_app ps pf); reflexivity|]. split; [apply Forall2_app; assumption|].
    split; [apply Forall_app; split; [exact PK|eapply Forall_impl; [|exact KF]; intros [| |] Q; [destruct Q|exact I|exact I]]|]. split.
    + intros i. rewrite ku_app, KU. assert (Z0 : ku (seg_pid i) kf = []) by (clear - KF; induction KF as [|k kf H KF IH]; [reflexivity|]; destruct k; [destruct H|destruct H|exact IH]). rewrite Z0. apply app_nil_r.
    + exists (ks' ++ kf). rewrite T'. reflexivity.
  - exists ks, ps. split; [reflexivity|]. split; [exact P|]. split; [exact PK|]. split; [exact KU|]. eauto.
Qed.

(** * Units with their packets *)
Definition same_unit (x : unit_t * bool * option Z) (v : unit_t * list tp) : Prop := fst v = fst (fst x) /\ carries (snd v) (u_bytes (fst v)) /\ iframe (first_indicator (snd v)) = snd (fst x).
Lemma units_same : forall pid ks tss, Forall2 piece_read ks tss -> Forall2 same_unit (ku pid ks) (units_in pid (combine ks tss)).
Proof.
  intros pid ks tss F. induction F as [|k ts ks tss H F IH]; [constructor|]. cbn [ku flat_map combine units_in fst snd]. apply Forall2_app; [|exact IH].
  destruct k as [q d|q x|q]; [constructor| |constructor]. cbn [piece_read] in H. destruct H as (_ & C & I). destruct (q =? pid); [|constructor]. constructor; [|constructor]. split; [reflexivity|]. split; assumption.
Qed.
Definition g_pmt (g : config) : list (Z * Z * list (Z * list Z)) := map (fun s => (fst s, snd s, [])) (pmt_entries g).
Lemma in_pmt : forall g ty pid ds, all_carried g -> In (ty, pid, ds) (g_pmt g) <-> exists i s, nth_error (g_streams g) i = Some s /\ ty = type_of s /\ pid = seg_pid i /\ ds = [].
Proof.
  intros g ty pid ds A. unfold g_pmt. rewrite entries_all by exact A. rewrite in_map_iff. split.
  - intros (e & E & I). apply slots_in in I as (k & s & H & ->); [|apply A]. injection E as <- <- <-. exists k, s. cbn [Nat.add]. auto.
  - intros (i & s & H & -> & -> & ->). exists (type_of s, seg_pid i). split; [reflexivity|]. apply slots_in; [apply A|]. exists i, s. split; [exact H|reflexivity].
Qed.
(** what the units of stream [i] must be for the reader *)
Definition stream_fine (ty : Z) (xs : list (unit_t * bool * option Z)) : Prop :=
  (exists sid, Forall (fun x => (declares (fst (fst x)) /\ u_sid (fst (fst x)) = sid) \/ leaves_open (fst (fst x))) xs)
  /\ match xs with [] => True | x :: _ => recognisable ty (u_bytes (fst (fst x))) end.
Lemma fine_units : forall ty xs vs, Forall2 same_unit xs vs -> stream_fine ty xs -> Forall unit_fits xs -> (exists sid, stream_units sid vs) /\ starts_recognisable ty vs.
Proof.
  intros ty xs vs F ((sid & D) & R) U. split.
  - exists sid. clear R. induction F as [|x v xs vs (E & C & _) F IH]; [constructor|]. inversion D; inversion U; subst. constructor; [|apply IH; assumption]. rewrite E in *. split; [|split; assumption].
    destruct x as [[u rai] pcr]. match goal with H : unit_fits _ |- _ => exact (proj1 H) end.
  - inversion F as [|x v xs' vs' (E & C & _) F' E1 E2]; subst; [exact I|]. destruct v as [u l]. cbn [fst snd] in *. exists l, []. rewrite app_nil_r. split; [reflexivity|]. destruct C as [C _]. rewrite C, E. exact R.
Qed.
Lemma carried_call : forall g i l, Forall (call_good g) l -> Forall unit_fits (map (cu g) (calls_of i l)).
Proof. intros g i l F. apply Forall_forall. intros x Hx. apply in_map_iff in Hx as (c & <- & Hc). apply filter_In in Hc as [Hc _]. rewrite Forall_forall in F. apply (F c Hc). Qed.
Lemma segment_transport : forall g cont l fill, all_carried g -> 0 <= cont < 256 -> Forall (call_good g) l -> l <> [] ->
  (forall i s, nth_error (g_streams g) i = Some s -> stream_fine (type_of s) (map (cu g) (calls_of i l))) ->
  exists b, segment g cont l fill = Some b /\ forall fuel, (length b <= fuel)%nat -> exists units, transport (g_pmt g) units (get_packets fuel b)
    /\ forall i s, nth_error (g_streams g) i = Some s -> Forall2 same_unit (map (cu g) (calls_of i l)) (units (seg_pid i)) /\ starts_recognisable (type_of s) (units (seg_pid i)).
Proof.
  intros g cont l fill A C F NE SF. destruct (segment_pieces g cont l fill A C F NE) as (ks & pk & E & P & PK & KU & ks' & EK). exists (concat (concat pk)). split; [exact E|]. intros fuel Hf.
  destruct (pieces_back ks pk fuel P Hf) as (tss & -> & R). rewrite EK in R. inversion R as [|? t1 ? tss1 R1 R']; subst. inversion R' as [|? t2 ? tss2 R2 R3]; subst. cbn [piece_read] in R1, R2. destruct R1 as (tpat & -> & P1 & C1). destruct R2 as (tpmt & -> & P2 & C2).
  exists (fun pid => units_in pid (combine ks' tss2)).
  assert (SAME : forall i s, nth_error (g_streams g) i = Some s -> Forall2 same_unit (map (cu g) (calls_of i l)) (units_in (seg_pid i) (combine ks' tss2))).
  { intros i s H. rewrite <- KU. exact (units_same (seg_pid i) _ _ R3). }
  assert (FINE : forall i s, nth_error (g_streams g) i = Some s -> (exists sid, stream_units sid (units_in (seg_pid i) (combine ks' tss2))) /\ starts_recognisable (type_of s) (units_in (seg_pid i) (combine ks' tss2))).
  { intros i s H. eapply fine_units; [exact (SAME i s H)|exact (SF i s H)|apply carried_call; exact F]. }
  split.
  2: { intros i s H. split; [exact (SAME i s H)|apply (FINE i s H)]. }
  destruct (seg_entry_ok g A) as (E1 & E2 & E3).
  exists tpat, tpmt, 1, (concat tss2). split; [reflexivity|]. split; [exact P1|]. split; [rewrite P2; unfold pmt_pid; lia|]. split; [|split; [|split; [|split; [|split]]]].
  - rewrite P2. assert (H : Forall (fun p => w16 (fst p) /\ pid_ok (snd p)) [(1, pmt_pid)]) by (constructor; [split; [unfold w16; cbn; lia|unfold pid_ok, pmt_pid; cbn; lia]|constructor]).
    unfold pat_data in C1. rewrite (C22_pat_written (g_align g) (g_r2 g) (g_r3 g) [(1, pmt_pid)] ltac:(cbn; lia) H) in C1. cbn [flat_map] in C1. rewrite app_nil_r in C1. set (sec := iso_section _ _ _ _ _ _ _) in *.
    exists 8, 1, (g_r2 g mod 4 * 64 + 1), 0, 0, (g_r3 g mod 8), (crc_spec sec). assert (W : w32 (crc_spec sec)) by (apply crc_bits_w; unfold w32; lia). unfold w32 in W. inversion H as [|? ? [H1 H2] _]; subst. cbn [fst snd] in *.
    split; [lia|]. split; [unfold w16; lia|]. split; [unfold is_byte; lia|]. split; [unfold is_byte; lia|]. split; [unfold is_byte; lia|]. split; [lia|]. split; [exact W|]. split; [exact H1|]. split; [exact H2|]. exact C1.
  - unfold pmt_data in C2. rewrite (C22_pmt_written (g_align g) (g_r2 g) 1 (pcr_pid_of g) (pmt_entries g) ltac:(lia) ltac:(unfold w16; lia) E3 E1) in C2. fold (g_pmt g) in C2. set (sec := iso_section _ _ _ _ _ _ _) in *.
    exists 8, 1, (g_r2 g mod 4 * 64 + 1), 0, 0, 0, 0, (pcr_pid_of g), [], (crc_spec sec). assert (W : w32 (crc_spec sec)) by (apply crc_bits_w; unfold w32; lia). unfold w32 in W.
    split; [lia|]. split; [unfold w16; lia|]. split; [unfold is_byte; lia|]. split; [unfold is_byte; lia|]. split; [unfold is_byte; lia|]. split; [lia|]. split; [lia|]. split; [exact W|]. split; [exact E3|]. split; [split; [constructor|cbn; lia]|]. split; [|split; [|exact C2]].
    + unfold g_pmt. apply Forall_forall. intros x Hx. apply in_map_iff in Hx as (e & <- & He). rewrite Forall_forall in E1. destruct (E1 e He). split; [assumption|]. split; [assumption|]. split; [constructor|cbn; lia].
    + unfold g_pmt. rewrite zlen_pmt_body, zlen_streams. change (zlen (iso_descriptors [])) with 0. lia.
  - unfold g_pmt. rewrite map_map. cbn [fst snd]. rewrite entries_all by exact A. apply slots_nodup, A.
  - intros H. apply in_map_iff in H as ([[ty pid] ds] & Q & I). apply in_pmt in I as (i & s & _ & _ & -> & _); [|exact A]. cbn [fst snd] in Q. unfold seg_pid in Q. lia.
  - intros H. apply in_map_iff in H as ([[ty pid] ds] & Q & I). apply in_pmt in I as (i & s & N & _ & -> & _); [|exact A]. cbn [fst snd] in Q. assert (i < length (g_streams g))%nat by (apply nth_error_Some; congruence). destruct A as [_ A]. unfold seg_pid, pmt_pid in *. lia.
  - intros ty pid ds I. apply in_pmt in I as (i & s & N & -> & -> & ->); [|exact A]. assert (i < length (g_streams g))%nat by (apply nth_error_Some; congruence). split; [|split; [apply (FINE i s N)|left; apply (FINE i s N)]].
    apply (keep_pieces (seg_pid i)); [exact R3|]. inversion PK as [|? ? _ PK1]; subst. inversion PK1 as [|? ? _ PK2]; subst. eapply Forall_impl; [|exact PK2]. intros [q d|q x|q]; [|tauto|tauto]. destruct A as [_ A]. cbn [plain_kind]. unfold seg_pid, pmt_pid. lia.
Qed.
