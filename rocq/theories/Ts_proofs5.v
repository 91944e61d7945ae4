(** Proofs for Ts_model: from the writer to the reader, and what is refuted. *)
From Coq Require Import ZifyNat.
From Verif Require Import Util Bits_spec Bits_lemmas TsTime_model TsTime_proofs Ts_model Ts_proofs Ts_proofs2 Ts_proofs3 Ts_proofs4.
Local Open Scope Z_scope.
Local Ltac Zify.zify_post_hook ::= Z.div_mod_to_equations.

Lemma declares_bounded u : declares u -> bounded u.
Proof.
  unfold declares, bounded, u_len, packet_length, u_total, header_data_length, MAX_PES_SIZE. intros [H1 H2].
  assert (0 <= b2z (present (u_pts u)) /\ 0 <= b2z (present (u_dts u)) /\ 0 <= b2z (present (u_escr u))) by (destruct (u_pts u), (u_dts u), (u_escr u); cbn; lia).
  destruct (Z.eqb_spec (zlen (u_body u)) 0); [lia|]. destruct (Z.leb_spec 65535 (zlen (u_body u))); [lia|]. cbn [orb]. lia.
Qed.
Lemma open_unbounded u : leaves_open u -> unbounded u.
Proof.
  unfold leaves_open, unbounded, u_len, packet_length, MAX_PES_SIZE. intros H.
  destruct (Z.eqb_spec (zlen (u_body u)) 0); [reflexivity|]. destruct (Z.leb_spec 65535 (zlen (u_body u))); [reflexivity|lia].
Qed.
Lemma u_bytes_bytes u : bytes (u_body u) -> bytes (u_bytes u).
Proof. intros H. rewrite u_bytes_eq. apply bytes_app. split; [unfold u_hdr; apply hdr_bytes|exact H]. Qed.

Definition rd (p : list Z) (t : tp) : Prop := t_tei t = 0 /\ t_pay t = 1 /\ (t_af t = 1 -> t_aflen t <= 183) /\ t_pusi t = iso_pusi p /\ t_payload t = iso_payload p.
Definition readable (pid : Z) (p : list Z) : Prop := iso_packet pid p /\ iso_plain_af p.
Lemma readable_get pid p rest : readable pid p -> exists t, get_packet (p ++ rest) = Some (t, rest) /\ rd p t.
Proof.
  intros [(L & B & S & P & HP & T & HA) SA].
  destruct (get_packet_ok p rest L B S T SA (or_introl HP)) as (t & E & T0 & U & _ & _ & _ & PL & PY & AF & AL & _).
  exists t. split; [exact E|]. unfold rd. rewrite HP in *. cbn [Z.eqb Pos.eqb] in PL.
  split; [exact T0|]. split; [exact PY|]. split; [|split; assumption]. intros A. rewrite AL by congruence. apply HA. congruence.
Qed.
Lemma get_packets_ok pid : forall l fuel, Forall (readable pid) l -> (length l <= fuel)%nat -> exists ts, get_packets fuel (concat l) = ts /\ Forall2 rd l ts.
Proof.
  induction l as [|p l IH]; intros fuel H F.
  - exists []. split; [|constructor]. destruct fuel; reflexivity.
  - destruct fuel as [|k]; [cbn [length] in F; lia|]. cbn [length] in F. cbn [get_packets concat].
    destruct (readable_get pid p (concat l) (Forall_inv H)) as (t & E & R). rewrite E.
    destruct (IH k (Forall_inv_tail H) ltac:(lia)) as (ts & <- & F2). eexists. split; [reflexivity|]. constructor; assumption.
Qed.
Lemma rd_carries l ts : Forall2 rd l ts -> (match l with [] => False | p :: l' => iso_pusi p = 1 /\ Forall (fun p => iso_pusi p = 0) l' end) ->
  Forall (fun p => iso_payload p <> []) l -> carries ts (concat_payloads l).
Proof.
  intros H P N. split; [|split].
  - unfold concat_payloads. f_equal. clear P N. induction H as [|p t l ts (_ & _ & _ & _ & E) H IH]; [reflexivity|]. cbn [map]. congruence.
  - destruct H as [|p t l ts R H]; [exact P|]. destruct P as [P1 P2]. split; [destruct R as (_ & _ & _ & U & _); congruence|].
    clear P1 R N. induction H as [|p' t' l ts (_ & _ & _ & U & _) H IH]; constructor; [rewrite U; apply (Forall_inv P2)|apply IH, (Forall_inv_tail P2)].
  - clear P. induction H as [|p t l ts (A1 & A2 & A3 & _ & E) H IH]; constructor; [|apply IH, (Forall_inv_tail N)].
    split; [exact A1|]. split; [exact A2|]. split; [exact A3|]. rewrite E. apply (Forall_inv N).
Qed.

Definition unit_packets (pid : Z) (u : unit_t) (ps : list (list Z)) : Prop :=
  Forall (readable pid) ps /\ (match ps with [] => False | p :: l' => iso_pusi p = 1 /\ Forall (fun p => iso_pusi p = 0) l' end)
  /\ Forall (fun p => iso_payload p <> []) ps /\ concat_payloads ps = u_bytes u.

Lemma u_bytes_nonempty u : u_bytes u <> [].
Proof. intros E. pose proof (u_bytes_len u) as L. rewrite E in L. pose proof (u_hdl_range u). pose proof (zlen_nonneg (u_body u)). change (zlen (@nil Z)) with 0 in L. lia. Qed.

Lemma write_units_ok pid : 0 <= pid < 8192 -> forall us cc, 0 <= cc < 256 -> Forall unit_fits us ->
  exists pk, write_units pid cc us = Some (concat (concat pk)) /\ Forall2 (fun x ps => unit_packets pid (fst (fst x)) ps) us pk.
Proof.
  intros Hp. induction us as [|[[u rai] pcr] us IH]; intros cc Hcc H.
  - exists []. split; [reflexivity|constructor].
  - destruct (Forall_inv H) as (Hu & Hb & Hf & Hx). cbn [write_units].
    destruct (output_ts_spec pid (u_bytes u) rai pcr cc Hp (u_bytes_bytes u Hb) Hcc Hf Hx) as (p1 & l & c & E & I & D & U & _ & _ & _ & R & _ & C & S & N).
    rewrite E. destruct (IH c ltac:(lia) (Forall_inv_tail H)) as (pk & E2 & F2). rewrite E2. exists ((p1 :: l) :: pk). split.
    + cbn [option_map]. do 2 f_equal. cbn [concat]. rewrite concat_app. cbn [concat]. rewrite <- app_assoc. reflexivity.
    + constructor; [|exact F2]. cbn [fst]. split; [|split; [|split]].
      * rewrite Forall_forall in *. intros x Hin. split; [apply I|apply S]; exact Hin.
      * split; [exact U|]. eapply Forall_impl; [|exact R]. intros a (A & _). exact A.
      * apply N. apply u_bytes_nonempty.
      * exact D.
Qed.

Lemma Forall2_concat_split (A B : Type) (R : A -> B -> Prop) : forall (pk : list (list A)) ts, Forall2 R (concat pk) ts -> exists tss, ts = concat tss /\ Forall2 (Forall2 R) pk tss.
Proof.
  induction pk as [|l pk IH]; intros ts H; cbn [concat] in H.
  - inversion H. exists []. split; [reflexivity|constructor].
  - apply Forall2_app_inv_l in H as (t1 & t2 & H1 & H2 & ->). destruct (IH t2 H2) as (tss & -> & F). exists (t1 :: tss). split; [reflexivity|constructor; assumption].
Qed.
Lemma Forall_concat_packets (P : list Z -> Prop) : forall pk, Forall (Forall P) pk -> Forall P (concat pk).
Proof. induction pk as [|l pk IH]; intros H; [constructor|]. cbn [concat]. apply Forall_app. split; [apply (Forall_inv H)|apply IH, (Forall_inv_tail H)]. Qed.

Lemma write_read pid sid us bs : 0 <= pid < 8192 -> Forall unit_fits (us ++ bs) ->
  Forall (fun x => leaves_open (fst (fst x))) us -> Forall (fun x => declares (fst (fst x)) /\ u_sid (fst (fst x)) = sid) bs -> forall cc, 0 <= cc < 256 ->
  exists b, write_units pid cc (us ++ bs) = Some b /\ forall fuel, (length b <= fuel)%nat ->
    reassemble (get_packets fuel b) = map (fun x => Received (u_body (fst (fst x)))) (us ++ bs).
Proof.
  intros Hp HF HU HB cc Hcc. destruct (write_units_ok pid Hp (us ++ bs) cc Hcc HF) as (pk & E & F). exists (concat (concat pk)). split; [exact E|]. intros fuel Hfuel.
  assert (RD : Forall (readable pid) (concat pk)).
  { apply Forall_concat_packets. clear -F. induction F as [|x ps us' pk' H F IH]; constructor; [apply H|exact IH]. }
  assert (LL : (length (concat pk) <= fuel)%nat).
  { eapply Nat.le_trans; [|exact Hfuel]. clear -RD. induction RD as [|p l [(L & _) _] RD IH]; [cbn; lia|]. cbn [concat length]. rewrite app_length. lia. }
  destruct (get_packets_ok pid (concat pk) fuel RD LL) as (ts & -> & R2). apply Forall2_concat_split in R2 as (tss & -> & R3).
  apply Forall2_app_inv_l in F as (pk1 & pk2 & F1 & F2 & ->). apply Forall2_app_inv_l in R3 as (t1 & t2 & T1 & T2 & ->).
  rewrite Forall_app in HF. destruct HF as [HF1 HF2].
  assert (Q1 : Forall2 (fun u l => u_ok u /\ unbounded u /\ carries l (u_bytes u)) (map (fun x => fst (fst x)) us) t1).
  { clear -F1 T1 HF1 HU. revert t1 T1 HF1 HU. induction F1 as [|[[u rai] pcr] ps us pk1 (A1 & A2 & A3 & A4) F1 IH]; intros t1 T1 HF1 HU; inversion T1; subst; [constructor|].
    cbn [map fst] in *. constructor; [|apply IH; [assumption|apply (Forall_inv_tail HF1)|apply (Forall_inv_tail HU)]].
    split; [apply (Forall_inv HF1)|]. split; [apply open_unbounded, (Forall_inv HU)|]. rewrite <- A4. apply rd_carries; assumption. }
  assert (Q2 : Forall2 (fun u l => u_ok u /\ bounded u /\ u_sid u = sid /\ carries l (u_bytes u)) (map (fun x => fst (fst x)) bs) t2).
  { clear -F2 T2 HF2 HB. revert t2 T2 HF2 HB. induction F2 as [|[[u rai] pcr] ps us pk1 (A1 & A2 & A3 & A4) F1 IH]; intros t1 T1 HF1 HU; inversion T1; subst; [constructor|].
    cbn [map fst] in *. constructor; [|apply IH; [assumption|apply (Forall_inv_tail HF1)|apply (Forall_inv_tail HU)]].
    split; [apply (Forall_inv HF1)|]. destruct (Forall_inv HU) as [D1 D2]. split; [apply declares_bounded; exact D1|]. split; [exact D2|]. rewrite <- A4. apply rd_carries; assumption. }
  rewrite (reassemble_ok sid _ _ _ _ Q1 Q2). rewrite <- map_app, map_map. reflexivity.
Qed.

(** * refuted *)
Lemma lost u1 u2 l1 l2 : u_ok u1 -> bounded u1 -> carries l1 (u_bytes u1) -> u_ok u2 -> unbounded u2 -> carries l2 (u_bytes u2) ->
  reassemble (l1 ++ l2) = [Received (u_body u1)].
Proof.
  intros U1 B1 C1 U2 B2 C2. unfold reassemble. rewrite add_all_app. rewrite (unit_bnd u1) by (try assumption; left; reflexivity).
  rewrite (unit_unb u2) by assumption. rewrite flush_bnd by assumption. cbn [fst snd s_has s_data s_sid]. cbn [flush ps0 s_gotfirst snd app].
  unfold before_unit_start. cbn [s_has]. unfold last_len. cbn [s_data]. change (p_len (u_rb u1)) with (u_len u1 mod 2 ^ 16). unfold bounded in B1. rewrite Z.mod_small by lia.
  destruct (Z.eqb_spec (u_len u1) 0); [lia|]. reflexivity.
Qed.
Lemma duplicated u l t : u_ok u -> bounded u -> carries l (u_bytes u) -> t_tei t = 0 -> t_pusi t = 0 -> t_pay t = 0 ->
  reassemble (l ++ [t]) = [Received (u_body u); Received (u_body u)].
Proof.
  intros U B C T P Y. unfold reassemble. rewrite add_all_app. rewrite (unit_bnd u) by (try assumption; left; reflexivity).
  cbn [flush ps0 s_gotfirst snd app add_all]. set (s0 := mkps _ _ _ _ _).
  assert (E : add s0 t = process s0) by (unfold add; rewrite T, P, Y; cbn [Z.eqb andb]; destruct (process s0); reflexivity).
  rewrite E. rewrite (process_full u) by (try assumption; try reflexivity; right; reflexivity). cbn [app s_gotfirst s0].
  pose proof (flush_bnd u (u_sid u) B) as Q. unfold flush in Q. cbn [s_gotfirst] in Q. rewrite Q. reflexivity.
Qed.
Lemma no_oob : forall l s, (forall t, In t l -> t_pay t = 1 -> t_af t = 1 -> t_aflen t <= 183) -> ~ In OutOfBounds (snd (add_all s l)) /\ ~ In OutOfBounds (snd (before_unit_start s)).
Proof.
  assert (BU : forall s, ~ In OutOfBounds (snd (before_unit_start s))).
  { intros s. unfold before_unit_start. unfold receive. repeat match goal with |- context [match ?x with _ => _ end] => destruct x | |- context [if ?x then _ else _] => destruct x end; cbn [snd app In]; intuition discriminate. }
  assert (PR : forall s, ~ In OutOfBounds (snd (process s))).
  { intros s. unfold process, receive. repeat match goal with |- context [match ?x with _ => _ end] => destruct x | |- context [if ?x then _ else _] => destruct x end; cbn [snd app In]; intuition discriminate. }
  intros l s H. split; [|apply BU]. revert s H. induction l as [|t l IH]; intros s H; [intros []|]. cbn [add_all].
  assert (A : ~ In OutOfBounds (snd (add s t))).
  { unfold add. destruct (t_tei t =? 1); [intros []|].
    destruct (if t_pusi t =? 1 then _ else _) as [s1 e1] eqn:E1.
    assert (N1 : ~ In OutOfBounds e1).
    { destruct (t_pusi t =? 1); [|injection E1 as _ <-; intros []]. destruct (s_gotfirst s); [|injection E1 as _ <-; intros []].
      specialize (BU s). destruct (before_unit_start s). injection E1 as _ <-. exact BU. }
    destruct ((t_pay t =? 1) && (t_af t =? 1) && (183 <? t_aflen t)) eqn:EX.
    { apply andb_true_iff in EX as [EX EX3]. apply andb_true_iff in EX as [EX1 EX2]. apply Z.eqb_eq in EX1, EX2. apply Z.ltb_lt in EX3. specialize (H t (or_introl eq_refl) EX1 EX2). lia. }
    match goal with |- context [process ?x] => specialize (PR x); destruct (process x) end. cbn [snd] in *. rewrite in_app_iff. tauto. }
  destruct (add s t) as [s1 e1]. specialize (IH s1 (fun t' Ht => H t' (or_intror Ht))). destruct (add_all s1 l) as [s2 e2]. cbn [snd] in *. rewrite in_app_iff. tauto.
Qed.
