(** Proofs for Seg_model: the packets of a segment *)
From Coq Require Import ZifyNat.
From Verif Require Import Util Bits_spec SampleTab_model Box_model TsTime_model Ts_model Es_model Ts_proofs Ts_proofs2 Ts_proofs3 Ts_proofs4 Crc_model TsSect_model TsSect_proofs TsSect_proofs3 TsSect_props TsDemux_model TsDemux_proofs Ts_proofs5 TsDemux_proofs2 TsDemux_proofs3 Seg_model.
Local Open Scope Z_scope.
Local Ltac Zify.zify_post_hook ::= Z.div_mod_to_equations.

(** * Pieces of a segment *)
Inductive kind := KTab (pid : Z) (data : list Z) | KUnit (pid : Z) (x : unit_t * bool * option Z) | KFill (pid : Z).
Definition piece_ok (k : kind) (ps : list (list Z)) : Prop :=
  match k with
  | KTab pid data => Forall (readable pid) ps /\ exists p, ps = [p] /\ iso_pusi p = 1 /\ iso_payload p = data /\ data <> []
  | KUnit pid x => unit_packets pid (fst (fst x)) ps /\ key_packets (snd (fst x)) ps
  | KFill pid => Forall (fun p => readable pid p /\ iso_pusi p = 0 /\ iso_payload p = []) ps
  end.
Definition piece_read (k : kind) (ts : list tp) : Prop :=
  match k with
  | KTab pid data => exists t, ts = [t] /\ t_pid t = pid /\ carries [t] data
  | KUnit pid x => Forall (fun t => t_pid t = pid) ts /\ carries ts (u_bytes (fst (fst x))) /\ iframe (first_indicator ts) = snd (fst x)
  | KFill pid => Forall (fun t => idle t = true) ts
  end.
Definition piece_pid (k : kind) : Z := match k with KTab p _ | KUnit p _ | KFill p => p end.
Lemma piece_readable : forall k ps, piece_ok k ps -> Forall (readable (piece_pid k)) ps.
Proof. intros [pid data|pid x|pid] ps H; cbn [piece_ok piece_pid] in *; [exact (proj1 H)|exact (proj1 (proj1 H))|]. eapply Forall_impl; [|exact H]. intros p (A & _). exact A. Qed.

(** * Reading packets of several streams *)
Definition rdp (p : list Z) (t : tp) : Prop := rdk p t /\ t_pid t = iso_pid p.
Lemma readable_getp p rest : (exists pid, readable pid p) -> exists t, get_packet (p ++ rest) = Some (t, rest) /\ rdp p t.
Proof.
  intros [pid [(L & B & S & P & HP & T & HA) SA]].
  destruct (get_packet_ok p rest L B S T SA (or_introl HP)) as (t & E & T0 & U & PI & _ & RA & PL & PY & AF & AL & _).
  exists t. split; [exact E|]. unfold rdp, rdk, rd. rewrite HP in *. cbn [Z.eqb Pos.eqb] in PL. split; [|exact PI].
  split; [split; [exact T0|]; split; [exact PY|]; split; [|split; assumption]; intros A; rewrite AL by congruence; apply HA; congruence|]. split; [exact RA|]. split; assumption.
Qed.
Lemma get_packetsp_ok : forall l fuel, Forall (fun p => exists pid, readable pid p) l -> (length l <= fuel)%nat -> exists ts, get_packets fuel (concat l) = ts /\ Forall2 rdp l ts.
Proof.
  induction l as [|p l IH]; intros fuel H F.
  - exists []. split; [|constructor]. destruct fuel; reflexivity.
  - destruct fuel as [|k]; [cbn [length] in F; lia|]. cbn [length] in F. cbn [get_packets concat].
    destruct (readable_getp p (concat l) (Forall_inv H)) as (t & E & R). rewrite E.
    destruct (IH k (Forall_inv_tail H) ltac:(lia)) as (ts & <- & F2). eexists. split; [reflexivity|]. constructor; assumption.
Qed.
Lemma rdp_rdk : forall l ts, Forall2 rdp l ts -> Forall2 rdk l ts. Proof. intros l ts F. induction F as [|p t l ts [H _] F IH]; constructor; assumption. Qed.
Lemma rdk_rd : forall l ts, Forall2 rdk l ts -> Forall2 rd l ts. Proof. intros l ts F. induction F as [|p t l ts [H _] F IH]; constructor; assumption. Qed.
Lemma rdp_pid : forall pid l ts, Forall2 rdp l ts -> Forall (readable pid) l -> Forall (fun t => t_pid t = pid) ts.
Proof. intros pid l ts F. induction F as [|p t l ts [_ H] F IH]; intros R; constructor; inversion R as [|? ? [(_ & _ & _ & P & _) _] R']; subst; [congruence|auto]. Qed.
Lemma filler_idle : forall pid p t, readable pid p -> iso_pusi p = 0 -> iso_payload p = [] -> rdp p t -> idle t = true.
Proof.
  intros pid p t [(L & B & S & P & HP & T & HA) _] U PL [((T0 & PY & AL & PU & PA) & RA & AF & AN) _].
  assert (A1 : iso_af p = 1).
  { destruct (Z.eqb_spec (iso_af p) 1) as [E|N]; [exact E|]. exfalso. unfold iso_payload in PL. destruct (Z.eqb_spec (iso_af p) 1); [congruence|]. apply (f_equal (@length Z)) in PL. rewrite skipn_length in PL. cbn in PL. lia. }
  assert (N4 : nth 4 p 0 = 183).
  { unfold iso_payload in PL. rewrite A1 in PL. apply (f_equal (@length Z)) in PL. cbn [Z.eqb Pos.eqb] in PL. rewrite skipn_length in PL. cbn [length] in PL. specialize (HA A1).
    assert (0 <= nth 4 p 0 < 256) by (apply (proj1 (Forall_forall _ _) B); apply nth_In; lia). lia. }
  unfold idle. rewrite T0, PU, U, PY, AF, A1, PA, PL. rewrite (AN A1), N4. reflexivity.
Qed.
Lemma piece_back : forall k ps ts, piece_ok k ps -> Forall2 rdp ps ts -> piece_read k ts.
Proof.
  intros [pid data|pid x|pid] ps ts H R; cbn [piece_ok piece_read] in *.
  - destruct H as (RD & p & -> & U & PL & NE). pose proof (rdp_pid pid _ _ R RD) as PT. inversion R as [|? t ? ts' R1 R2]; subst. inversion R2; subst. exists t. split; [reflexivity|]. split; [exact (Forall_inv PT)|].
    pose proof (rd_carries [p] [t]) as C. unfold concat_payloads in C. cbn [map concat] in C. rewrite app_nil_r in C. apply C; [constructor; [apply R1|constructor]|split; [exact U|constructor]|constructor; [exact NE|constructor]].
  - destruct H as ((A1 & A2 & A3 & A4) & K). pose proof (rdp_rdk _ _ R) as RK. split; [exact (rdp_pid pid _ _ R A1)|]. split; [rewrite <- A4; apply rd_carries; [apply rdk_rd; exact RK|assumption|assumption]|]. eapply indicator_key; eassumption.
  - induction R as [|p t ps ts R1 R2 IH]; constructor; inversion H as [|? ? (A & B & C) H']; subst; [eapply filler_idle; eassumption|auto].
Qed.
Lemma pieces_back : forall ks pk fuel, Forall2 piece_ok ks pk -> (length (concat (concat pk)) <= fuel)%nat ->
  exists tss, get_packets fuel (concat (concat pk)) = concat tss /\ Forall2 piece_read ks tss.
Proof.
  intros ks pk fuel F Hf. assert (RD : Forall (fun p => exists pid, readable pid p) (concat pk)).
  { apply Forall_concat_packets. clear -F. induction F as [|k ps ks pk H F IH]; constructor; [|exact IH]. apply piece_readable in H. eapply Forall_impl; [|exact H]. intros p Hp. eexists. exact Hp. }
  assert (LL : (length (concat pk) <= fuel)%nat).
  { eapply Nat.le_trans; [|exact Hf]. clear -RD. induction RD as [|p l [pid [(L & _) _]] RD IH]; [cbn; lia|]. cbn [concat length]. rewrite app_length. lia. }
  destruct (get_packetsp_ok (concat pk) fuel RD LL) as (ts & -> & R2). apply Forall2_concat_split in R2 as (tss & -> & R3). exists tss. split; [reflexivity|].
  clear - F R3. revert tss R3. induction F as [|k ps ks pk H F IH]; intros tss R; inversion R; subst; constructor; [eapply piece_back; eassumption|auto].
Qed.
(** the units of one stream *)
Definition units_in (pid : Z) (ks : list (kind * list tp)) : list (unit_t * list tp) :=
  flat_map (fun x => match fst x with KUnit q u => if q =? pid then [(fst (fst u), snd x)] else [] | _ => [] end) ks.
Definition kept (pid : Z) (t : tp) : bool := (t_pid t =? pid) && negb (idle t).
Lemma carries_busy : forall ts u, carries ts u -> Forall (fun t => idle t = false) ts.
Proof. intros ts u (_ & _ & F). eapply Forall_impl; [|exact F]. intros t (A & B & _ & D). unfold idle. rewrite B. destruct (t_payload t); [congruence|]. cbn [Z.eqb Pos.eqb orb]. rewrite !andb_false_r. reflexivity. Qed.
Lemma filter_none : forall A (f : A -> bool) l, Forall (fun x => f x = false) l -> filter f l = []. Proof. intros A f l F. induction F as [|x l H F IH]; [reflexivity|]. cbn [filter]. rewrite H. exact IH. Qed.
Lemma filter_every : forall A (f : A -> bool) l, Forall (fun x => f x = true) l -> filter f l = l. Proof. intros A f l F. induction F as [|x l H F IH]; [reflexivity|]. cbn [filter]. rewrite H. f_equal. exact IH. Qed.
Lemma keep_pieces : forall pid ks tss, Forall2 piece_read ks tss -> Forall (fun k => match k with KTab q _ => q <> pid | _ => True end) ks ->
  filter (kept pid) (concat tss) = concat (map snd (units_in pid (combine ks tss))).
Proof.
  intros pid ks tss F. induction F as [|k ts ks tss H F IH]; intros T; [reflexivity|]. inversion T as [|? ? T1 T2]; subst. cbn [concat combine]. rewrite filter_app, IH by exact T2. unfold units_in. cbn [flat_map]. rewrite map_app, concat_app. f_equal. cbn [fst snd].
  destruct k as [q data|q x|q]; cbn [piece_read] in H.
  - destruct H as (t & -> & P & _). cbn [filter]. unfold kept. destruct (Z.eqb_spec (t_pid t) pid); [congruence|]. reflexivity.
  - destruct H as (P & C & _). destruct (Z.eqb_spec q pid) as [E|N].
    + cbn [map snd concat]. rewrite app_nil_r. apply filter_every. pose proof (carries_busy _ _ C) as B. clear - P B E. induction P as [|t ts A P IH]; constructor; inversion B; subst; [unfold kept; rewrite Z.eqb_refl, H1; reflexivity|auto].
    + cbn [map concat]. apply filter_none. eapply Forall_impl; [|exact P]. intros t A. unfold kept. destruct (Z.eqb_spec (t_pid t) pid); [congruence|reflexivity].
  - cbn [map concat]. apply filter_none. eapply Forall_impl; [|exact H]. intros t A. unfold kept. rewrite A. apply andb_false_r.
Qed.

(** * Writing *)
Definition cc_ok (cc : Z -> Z) : Prop := forall p, 0 <= cc p < 256.
Lemma set_cc_ok : forall cc p c, cc_ok cc -> 0 <= c < 256 -> cc_ok (set_cc cc p c). Proof. intros cc p c H C q. unfold set_cc. destruct (q =? p); [exact C|apply H]. Qed.
Lemma unit_piece : forall pid x cc, 0 <= pid < 8192 -> 0 <= cc < 256 -> unit_fits x -> exists l c, output_ts pid (u_bytes (fst (fst x))) (snd (fst x)) (snd x) cc = Packets l c /\ piece_ok (KUnit pid x) l /\ 0 <= c < 256.
Proof.
  intros pid [[u rai] pcr] cc Hp Hcc (Hu & Hb & Hf & Hx). cbn [fst snd] in *.
  destruct (output_ts_spec pid (u_bytes u) rai pcr cc Hp (u_bytes_bytes u Hb) Hcc Hf Hx) as (p1 & l & c & E & I & D & U & RA & _ & _ & R & _ & C & S & N).
  exists (p1 :: l), c. split; [exact E|]. split; [|lia]. cbn [piece_ok fst snd]. split; [split; [|split; [|split]]|split].
  - rewrite Forall_forall in *. intros x Hin. split; [apply I|apply S]; exact Hin.
  - split; [exact U|]. eapply Forall_impl; [|exact R]. intros a (A & _). exact A.
  - apply N. apply u_bytes_nonempty.
  - exact D.
  - exact RA.
  - eapply Forall_impl; [|exact R]. intros a (_ & A & _). exact A.
Qed.
Lemma table_piece : forall pid data cc, 0 <= pid < 8192 -> 0 <= cc < 256 -> bytes data -> data <> [] -> zlen data <= 184 -> exists l c, output_ts pid data false None cc = Packets l c /\ piece_ok (KTab pid data) l /\ 0 <= c < 256.
Proof.
  intros pid data cc Hp Hcc Hb Hn Hl. destruct (output_ts_spec pid data false None cc Hp Hb Hcc I ltac:(discriminate)) as (p1 & l & c & E & I & D & U & _ & _ & _ & R & _ & C & S & N).
  destruct (output_one pid data cc Hl _ _ E) as [q Eq]. injection Eq as -> ->. exists [q], c. split; [exact E|]. split; [|lia]. cbn [piece_ok]. split.
  - constructor; [|constructor]. split; [exact (Forall_inv I)|exact (Forall_inv S)].
  - exists q. split; [reflexivity|]. split; [exact U|]. unfold concat_payloads in D. cbn [map concat] in D. rewrite app_nil_r in D. split; assumption.
Qed.
Lemma fill_piece : forall pid cc, 0 <= pid < 8192 -> 0 <= cc < 256 -> exists l c, fill_pid pid cc = Some (l, c) /\ piece_ok (KFill pid) l /\ 0 <= c < 256.
Proof.
  intros pid cc Hp Hcc. destruct (fill_ok pid cc Hp Hcc) as (l & c & E & C & _ & _ & F). exists l, c. split; [exact E|]. split; [|lia]. cbn [piece_ok]. apply Forall_forall. intros p Hin. apply In_nth_error in Hin as [i Hi]. destruct (F i p Hi).
  split; [split; assumption|]. split; assumption.
Qed.
Lemma stuff_pieces : forall ss i cc, cc_ok cc -> (i + length ss <= 3840)%nat -> exists ps cc', stuff i ss cc = Some (concat ps, cc') /\ exists ks, Forall2 piece_ok ks ps /\ Forall (fun k => match k with KFill _ => True | _ => False end) ks.
Proof.
  induction ss as [|s ss IH]; intros i cc OK L; cbn [stuff length] in *.
  - exists [], cc. split; [reflexivity|]. exists []. split; constructor.
  - assert (Hp : 0 <= seg_pid i < 8192) by (unfold seg_pid; lia). destruct (fill_piece (seg_pid i) (cc (seg_pid i)) Hp (OK _)) as (l & c & -> & P & C).
    destruct (IH (S i) (set_cc cc (seg_pid i) c) (set_cc_ok _ _ _ OK C) ltac:(lia)) as (ps & cc' & -> & ks & F & K). exists (l :: ps), cc'. split; [reflexivity|]. exists (KFill (seg_pid i) :: ks). split; constructor; try assumption. exact I.
Qed.
