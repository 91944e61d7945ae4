(** Proofs for TsDemux_model: streams do not disturb each other; key frames of written streams *)
From Coq Require Import ZifyNat.
From Verif Require Import Util Bits_spec TsTime_model Ts_model Ts_proofs Ts_proofs2 Ts_proofs3 Ts_proofs4 Ts_proofs5 TsSect_model TsDemux_model TsDemux_proofs.
Local Open Scope Z_scope.

Lemma find_set_eq : forall A pid (x : A) m, find_pid pid (set_pid pid x m) = Some x.
Proof. intros A pid x m. induction m as [|[p y] m IH]; cbn [set_pid find_pid]; [rewrite Z.eqb_refl; reflexivity|]. destruct (Z.eqb_spec p pid) as [E|N]; cbn [find_pid]; [rewrite Z.eqb_refl; reflexivity|]. destruct (Z.eqb_spec p pid); [congruence|exact IH]. Qed.
Lemma find_set_neq : forall A pid q (x : A) m, pid <> q -> find_pid q (set_pid pid x m) = find_pid q m.
Proof.
  intros A pid q x m NE. induction m as [|[p y] m IH]; cbn [set_pid find_pid]; [destruct (Z.eqb_spec pid q); [congruence|reflexivity]|]. destruct (Z.eqb_spec p pid) as [E|N]; cbn [find_pid].
  - destruct (Z.eqb_spec pid q); [congruence|]. destruct (Z.eqb_spec p q); [congruence|reflexivity].
  - destruct (Z.eqb_spec p q); [reflexivity|exact IH].
Qed.
Lemma of_pid_app : forall pid a b, of_pid pid (a ++ b) = of_pid pid a ++ of_pid pid b. Proof. intros. apply flat_map_app. Qed.
Lemma of_pid_map : forall pid q e, of_pid pid (map (MUnit q) e) = if q =? pid then e else [].
Proof. intros pid q e. induction e as [|x e IH]; [destruct (q =? pid); reflexivity|]. cbn [map]. change (MUnit q x :: map (MUnit q) e) with ([MUnit q x] ++ map (MUnit q) e). rewrite of_pid_app, IH. cbn [of_pid flat_map]. destruct (q =? pid); reflexivity. Qed.
Lemma mfatal_map : forall q e, existsb mfatal (map (MUnit q) e) = existsb fatal e. Proof. intros q e. induction e as [|x e IH]; [reflexivity|]. cbn [map existsb mfatal]. rewrite IH. reflexivity. Qed.
Definition here (pid : Z) (l : list tp) : list tp := filter (fun t => t_pid t =? pid) l.
(** the map tables all known *)
Definition tables_known (m : demux) : Prop := dm_pat m <> None /\ (forall pid b, find_pid pid (dm_pmts m) <> Some (b, None)) /\ forall pid x, find_pid pid (dm_pmts m) = Some x -> find_pid pid (dm_pes m) = None.
Definition calm (m : demux) (l : list tp) : Prop := forall pid ty s, pid <> 0 -> find_pid pid (dm_pes m) = Some (ty, s) -> existsb fatal (dfeed (gate_of ty) s (here pid l)) = false.
Lemma run_stream : forall align l m pid ty s, tables_known m -> calm m l -> pid <> 0 -> find_pid pid (dm_pes m) = Some (ty, s) ->
  of_pid pid (dm_run align m l) = dfeed (gate_of ty) s (here pid l) /\ existsb mfatal (dm_run align m l) = false.
Proof.
  intros align. induction l as [|t l IH]; intros m pid ty s (PAT & PMT & SEP) CALM P0 F; [split; reflexivity|]. cbn [dm_run]. unfold dm_process.
  destruct (dm_pat m) as [pat|] eqn:EP; [|congruence].
  assert (SKIP : t_pid t = 0 \/ find_pid (t_pid t) (dm_pes m) = None -> calm m l /\ here pid (t :: l) = here pid l).
  { intros Q. assert (NP : forall q v, q <> 0 -> find_pid q (dm_pes m) = Some v -> (t_pid t =? q) = false) by (intros q v Hq Hv; destruct (Z.eqb_spec (t_pid t) q) as [X|X]; [|reflexivity]; subst; destruct Q; congruence).
    split; [|unfold here; cbn [filter]; rewrite (NP pid _ P0 F); reflexivity]. intros q ty' s' Hq Hs. specialize (CALM q ty' s' Hq Hs). unfold here in CALM. cbn [filter] in CALM. rewrite (NP q _ Hq Hs) in CALM. exact CALM. }
  assert (TK : tables_known m) by (split; [congruence|split; assumption]).
  destruct (Z.eqb_spec (t_pid t) 0) as [Z0|NZ].
  - destruct (SKIP (or_introl Z0)) as [C2 H2]. cbn [existsb app]. rewrite H2. apply IH; assumption.
  - destruct (find_pid (t_pid t) (dm_pmts m)) as [[b [x|]]|] eqn:FM; [|destruct (PMT _ _ FM)|].
    + destruct (SKIP (or_intror (SEP _ _ FM))) as [C2 H2]. cbn [existsb app]. rewrite H2. apply IH; assumption.
    + destruct (find_pid (t_pid t) (dm_pes m)) as [[ty' s']|] eqn:FP.
      2: { destruct (SKIP (or_intror eq_refl)) as [C2 H2]. cbn [existsb app]. rewrite H2. apply IH; assumption. }
      destruct (dstep (gate_of ty') s' t) as [s'' e] eqn:ST.
      pose proof (CALM (t_pid t) ty' s' NZ FP) as CT. unfold here in CT. cbn [filter] in CT. rewrite Z.eqb_refl in CT. cbn [dfeed] in CT. rewrite ST in CT.
      destruct (existsb fatal e) eqn:FE; [rewrite FE in CT; discriminate CT|]. rewrite existsb_app, FE in CT. cbn [orb] in CT.
      rewrite mfatal_map, FE. set (m' := mkDm (dm_buf m) (Some pat) (dm_pmts m) (set_pid (t_pid t) (ty', s'') (dm_pes m))).
      assert (TK' : tables_known m').
      { split; [discriminate|]. split; [exact PMT|]. cbn [m' dm_pmts dm_pes]. intros q v Hq. destruct (Z.eq_dec (t_pid t) q) as [E|N]; [subst q; congruence|]. rewrite find_set_neq by exact N. apply (SEP q v Hq). }
      assert (CALM' : calm m' l).
      { intros q tq sq Hq. cbn [m' dm_pes]. destruct (Z.eq_dec (t_pid t) q) as [E|N].
        - subst q. rewrite find_set_eq. intros [= <- <-]. exact CT.
        - rewrite find_set_neq by exact N. intros Hs. specialize (CALM q tq sq Hq Hs). unfold here in CALM. cbn [filter] in CALM. destruct (Z.eqb_spec (t_pid t) q); [congruence|]. exact CALM. }
      rewrite of_pid_app, of_pid_map, existsb_app, mfatal_map, FE. destruct (Z.eqb_spec (t_pid t) pid) as [E|N].
      * subst pid. rewrite F in FP. injection FP as <- <-. unfold here. cbn [filter]. rewrite Z.eqb_refl. cbn [dfeed]. rewrite ST, FE.
        destruct (IH m' (t_pid t) ty s'' TK' CALM' P0) as [I1 I2]; [cbn [m' dm_pes]; apply find_set_eq|]. rewrite I1, I2. split; reflexivity.
      * unfold here. cbn [filter]. destruct (Z.eqb_spec (t_pid t) pid); [congruence|]. cbn [app orb]. apply IH; try assumption. cbn [m' dm_pes]. rewrite find_set_neq by exact N. exact F.
Qed.
(** the tables *)
Lemma psi_one : forall A align id (rd : reader A) old t x c, psi_feed align id rd old [t] = [Table x c] -> exists b, psi_add align id rd old t = (b, [Table x c]).
Proof. intros A align id rd old t x c H. cbn [psi_feed] in H. destruct (psi_add align id rd old t) as [b e]. rewrite app_nil_r in H. subst. eauto. Qed.
Definition put_streams (ss : list (Z * Z * list (Z * list Z))) (m : list (Z * (Z * dstate))) := fold_left (fun l (s : Z * Z * list (Z * list Z)) => set_pid (snd (fst s)) (fst (fst s), d0) l) ss m.
Lemma put_streams_out : forall ss m pid, ~ In pid (map (fun s => snd (fst s)) ss) -> find_pid pid (put_streams ss m) = find_pid pid m.
Proof. induction ss as [|[[ty p] ds] ss IH]; intros m pid N; [reflexivity|]. cbn [put_streams fold_left map In fst snd] in *. change (find_pid pid (put_streams ss (set_pid p (ty, d0) m)) = find_pid pid m). rewrite IH by tauto. apply find_set_neq. intros E. apply N. left. exact E. Qed.
Lemma put_streams_in : forall ss m ty pid ds, NoDup (map (fun s => snd (fst s)) ss) -> In (ty, pid, ds) ss -> find_pid pid (put_streams ss m) = Some (ty, d0).
Proof.
  induction ss as [|[[ty' p] ds'] ss IH]; intros m ty pid ds ND I; [destruct I|]. cbn [map fst snd] in ND. inversion ND as [|? ? NI ND']. subst. change (find_pid pid (put_streams ss (set_pid p (ty', d0) m)) = Some (ty, d0)).
  destruct I as [[= -> -> ->]|I]; [rewrite put_streams_out by exact NI; apply find_set_eq|]. eapply IH; eassumption.
Qed.
Lemma put_streams_inv : forall ss m pid v, find_pid pid (put_streams ss m) = Some v -> find_pid pid m = Some v \/ exists ty ds, In (ty, pid, ds) ss /\ v = (ty, d0).
Proof.
  induction ss as [|[[ty' p] ds'] ss IH]; intros m pid v H; [left; exact H|]. change (find_pid pid (put_streams ss (set_pid p (ty', d0) m)) = Some v) in H. destruct (IH _ _ _ H) as [Q|(ty & ds & I & E)].
  - destruct (Z.eq_dec p pid) as [->|N]; [rewrite find_set_eq in Q; injection Q as <-; right; exists ty', ds'; split; [left; reflexivity|reflexivity]|rewrite find_set_neq in Q by exact N; left; exact Q].
  - right. exists ty, ds. split; [right; exact I|exact E].
Qed.
Lemma setup : forall align tpat tpmt n pid programs_crc c1 x c2 l, t_pid tpat = 0 -> t_pid tpmt = pid -> pid <> 0 ->
  psi_feed align 0 get_pat [] [tpat] = [Table ([(n, pid)], programs_crc) c1] -> psi_feed align 2 get_pmt [] [tpmt] = [Table x c2] ->
  exists b1 b2, dm_run align dm0 (tpat :: tpmt :: l) = dm_run align (mkDm b1 (Some [(n, pid)]) [(pid, (b2, Some x))] (put_streams (m_streams x) [])) l.
Proof.
  intros align tpat tpmt n pid pc c1 x c2 l P1 P2 NZ A B. destruct (psi_one _ _ _ _ _ _ _ _ A) as [b1 A']. destruct (psi_one _ _ _ _ _ _ _ _ B) as [b2 B']. exists b1, b2.
  cbn [dm_run]. unfold dm_process at 1. rewrite P1. cbn [Z.eqb dm0 dm_pat dm_buf]. rewrite A'. cbn [last_table existsb app dm_pmts dm_pes fold_left snd set_pid].
  unfold dm_process at 1. rewrite P2. destruct (Z.eqb_spec pid 0); [congruence|]. change (dm_pmts dm0) with (@nil (Z * (list Z * option pmt))). change (dm_pes dm0) with (@nil (Z * (Z * dstate))). cbn [dm_pat dm_pmts dm_pes dm_buf find_pid set_pid].
  rewrite Z.eqb_refl. rewrite B'. cbn [last_table existsb app set_pid]. rewrite ?Z.eqb_refl. reflexivity.
Qed.
Lemma known_after : forall b1 n pid b2 x, ~ In pid (map (fun s => snd (fst s)) (m_streams x)) -> tables_known (mkDm b1 (Some [(n, pid)]) [(pid, (b2, Some x))] (put_streams (m_streams x) [])).
Proof.
  intros b1 n pid b2 x NI. split; [discriminate|]. split; cbn [dm_pmts dm_pes find_pid].
  - intros q b. destruct (Z.eqb_spec pid q); congruence.
  - intros q v. destruct (Z.eqb_spec pid q) as [E|N]; [|discriminate]. intros _. subst q. rewrite put_streams_out by exact NI. reflexivity.
Qed.
(** expected events *)
Lemma expect_calm : forall us f, existsb fatal (expect f us) = false.
Proof. induction us as [|[u l] us IH]; intros f; [reflexivity|]. cbn [expect]. cbv zeta. destruct (is_decl u); [apply IH|]. destruct us; [reflexivity|]. cbn [existsb fatal orb]. apply IH. Qed.
Lemma expect_decl : forall us, Forall (fun x => is_decl (fst x) = true) us -> expect None us = map (fun x => DUnit (u_body (fst x)) (first_indicator (snd x)) (Some (u_rb (fst x)))) us.
Proof. intros us F. induction F as [|[u l] us H F IH]; [reflexivity|]. cbn [expect map fst snd] in *. cbv zeta. rewrite H. cbn [merge]. f_equal. exact IH. Qed.
Definition is_unit (x : unit_t * list tp) (e : devent) : Prop := exists f, e = DUnit (u_body (fst x)) f (Some (u_rb (fst x))).
Lemma expect_bodies : forall us x f, is_decl (fst x) = true -> Forall2 is_unit (us ++ [x]) (expect f (us ++ [x])).
Proof.
  induction us as [|[u l] us IH]; intros x f D; [cbn [app expect]; destruct x as [u l]; cbn [fst] in D; cbv zeta; rewrite D; constructor; [eexists; reflexivity|constructor]|].
  cbn [app expect]. cbv zeta. destruct (is_decl u); [constructor; [eexists; reflexivity|apply IH; exact D]|]. destruct (us ++ [x]) as [|y r] eqn:E; [destruct us; discriminate E|]. constructor; [eexists; reflexivity|]. rewrite <- E. apply IH. exact D.
Qed.
Lemma expect_last_open : forall us x f, is_decl (fst x) = false -> Forall2 is_unit us (expect f (us ++ [x])).
Proof.
  induction us as [|[u l] us IH]; intros x f D; [cbn [app expect]; destruct x as [u l]; cbn [fst] in D; cbv zeta; rewrite D; constructor|].
  cbn [app expect]. cbv zeta. destruct (is_decl u); [constructor; [eexists; reflexivity|apply IH; exact D]|]. destruct (us ++ [x]) as [|y r] eqn:E; [destruct us; discriminate E|]. constructor; [eexists; reflexivity|]. rewrite <- E. apply IH. exact D.
Qed.
Lemma expect_all_open : forall us r, Forall (fun x => is_decl (fst x) = false) us -> Forall (fun e => exists b p, e = DUnit b (Some r) p) (expect (Some r) us).
Proof. intros us r F. induction F as [|[u l] us H F IH]; [constructor|]. cbn [expect fst merge] in *. cbv zeta. rewrite H. destruct us; [constructor|]. constructor; [eexists _, _; reflexivity|exact IH]. Qed.
(** packets of written units *)
Definition rdk (p : list Z) (t : tp) : Prop := rd p t /\ t_rai t = iso_rai p /\ t_af t = iso_af p /\ (iso_af p = 1 -> t_aflen t = nth 4 p 0).
Lemma readable_getk pid p rest : readable pid p -> exists t, get_packet (p ++ rest) = Some (t, rest) /\ rdk p t.
Proof.
  intros [(L & B & S & P & HP & T & HA) SA].
  destruct (get_packet_ok p rest L B S T SA (or_introl HP)) as (t & E & T0 & U & _ & _ & RA & PL & PY & AF & AL & _).
  exists t. split; [exact E|]. unfold rdk, rd. rewrite HP in *. cbn [Z.eqb Pos.eqb] in PL.
  split; [split; [exact T0|]; split; [exact PY|]; split; [|split; assumption]; intros A; rewrite AL by congruence; apply HA; congruence|]. split; [exact RA|]. split; assumption.
Qed.
Lemma get_packetsk_ok pid : forall l fuel, Forall (readable pid) l -> (length l <= fuel)%nat -> exists ts, get_packets fuel (concat l) = ts /\ Forall2 rdk l ts.
Proof.
  induction l as [|p l IH]; intros fuel H F.
  - exists []. split; [|constructor]. destruct fuel; reflexivity.
  - destruct fuel as [|k]; [cbn [length] in F; lia|]. cbn [length] in F. cbn [get_packets concat].
    destruct (readable_getk pid p (concat l) (Forall_inv H)) as (t & E & R). rewrite E.
    destruct (IH k (Forall_inv_tail H) ltac:(lia)) as (ts & <- & F2). eexists. split; [reflexivity|]. constructor; assumption.
Qed.
Definition key_packets (rai : bool) (ps : list (list Z)) : Prop := match ps with [] => False | p :: l => iso_rai p = b2z rai /\ Forall (fun p => iso_rai p = 0) l end.
Lemma write_unitsk_ok pid : 0 <= pid < 8192 -> forall us cc, 0 <= cc < 256 -> Forall unit_fits us ->
  exists pk, write_units pid cc us = Some (concat (concat pk)) /\ Forall2 (fun x ps => unit_packets pid (fst (fst x)) ps /\ key_packets (snd (fst x)) ps) us pk.
Proof.
  intros Hp. induction us as [|[[u rai] pcr] us IH]; intros cc Hcc H.
  - exists []. split; [reflexivity|constructor].
  - destruct (Forall_inv H) as (Hu & Hb & Hf & Hx). cbn [write_units].
    destruct (output_ts_spec pid (u_bytes u) rai pcr cc Hp (u_bytes_bytes u Hb) Hcc Hf Hx) as (p1 & l & c & E & I & D & U & RA & _ & _ & R & _ & C & S & N).
    rewrite E. destruct (IH c ltac:(lia) (Forall_inv_tail H)) as (pk & E2 & F2). rewrite E2. exists ((p1 :: l) :: pk). split.
    + cbn [option_map]. do 2 f_equal. cbn [concat]. rewrite concat_app. cbn [concat]. rewrite <- app_assoc. reflexivity.
    + constructor; [|exact F2]. cbn [fst snd]. split; [split; [|split; [|split]]|split].
      * rewrite Forall_forall in *. intros x Hin. split; [apply I|apply S]; exact Hin.
      * split; [exact U|]. eapply Forall_impl; [|exact R]. intros a (A & _). exact A.
      * apply N. apply u_bytes_nonempty.
      * exact D.
      * exact RA.
      * eapply Forall_impl; [|exact R]. intros a (_ & A & _). exact A.
Qed.
Lemma indicator_zero : forall ps ts, Forall2 rdk ps ts -> Forall (fun p => iso_rai p = 0) ps -> iframe (first_indicator ts) = false.
Proof.
  intros ps ts F. induction F as [|p t ps ts (_ & RA & _) F IH]; intros Z0; [reflexivity|]. inversion Z0; subst. cbn [first_indicator]. destruct (_ && _); [|apply IH; assumption]. cbn [iframe]. rewrite RA, H1. reflexivity.
Qed.
Lemma indicator_key : forall rai ps ts pid, Forall2 rdk ps ts -> key_packets rai ps -> Forall (readable pid) ps -> Forall (fun p => iso_payload p <> []) ps -> iframe (first_indicator ts) = rai.
Proof.
  intros rai ps ts pid F K RD NP. destruct ps as [|p ps]; [destruct K|]. destruct K as [K1 K2]. destruct rai; [|apply indicator_zero with (p :: ps); [exact F|constructor; assumption]].
  inversion F as [|? t ? ts' R F' E1]. subst. destruct R as ((_ & PY & _) & RA & AF & AL). inversion NP as [|? ? N1 _]. subst. inversion RD as [|? ? [(L & B & _) _] _]. subst.
  assert (A1 : iso_af p = 1) by (unfold iso_rai in K1; destruct (Z.eqb_spec (iso_af p) 1); [assumption|cbn in K1; discriminate K1]).
  assert (NL : nth 4 p 0 <> 183). { intros Q. apply N1. unfold iso_payload. rewrite A1, Q. cbn [Z.eqb Pos.eqb]. apply skipn_all2. rewrite L. cbn. lia. }
  cbn [first_indicator]. rewrite PY, AF, A1, AL by exact A1. destruct (Z.eqb_spec (nth 4 p 0) 183); [congruence|]. cbn [Z.eqb Pos.eqb andb negb iframe]. rewrite RA, K1. reflexivity.
Qed.
Lemma written : forall pid us cc, 0 <= pid < 8192 -> 0 <= cc < 256 -> Forall unit_fits us -> exists b, write_units pid cc us = Some b /\ forall fuel, (length b <= fuel)%nat ->
  exists tss, get_packets fuel b = concat tss /\ Forall2 (fun x l => carries l (u_bytes (fst (fst x))) /\ iframe (first_indicator l) = snd (fst x)) us tss.
Proof.
  intros pid us cc Hp Hcc HF. destruct (write_unitsk_ok pid Hp us cc Hcc HF) as (pk & E & F). exists (concat (concat pk)). split; [exact E|]. intros fuel Hfuel.
  assert (RD : Forall (readable pid) (concat pk)).
  { apply Forall_concat_packets. clear -F. induction F as [|x ps us' pk' [H _] F IH]; constructor; [apply H|exact IH]. }
  assert (LL : (length (concat pk) <= fuel)%nat).
  { eapply Nat.le_trans; [|exact Hfuel]. clear -RD. induction RD as [|p l [(L & _) _] RD IH]; [cbn; lia|]. cbn [concat length]. rewrite app_length. lia. }
  destruct (get_packetsk_ok pid (concat pk) fuel RD LL) as (ts & -> & R2). apply Forall2_concat_split in R2 as (tss & -> & R3). exists tss. split; [reflexivity|].
  clear - F R3. revert tss R3. induction F as [|x ps us pk [(A1 & A2 & A3 & A4) K] F IH]; intros tss R; inversion R as [|? ts ? tss' R1 R2]; subst; constructor; [|apply IH; assumption]. split.
  - rewrite <- A4. apply rd_carries; try assumption. clear - R1. induction R1 as [|p t l ts [H _] R IH]; constructor; assumption.
  - eapply indicator_key; eassumption.
Qed.
