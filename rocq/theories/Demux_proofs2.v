(** Proofs about Demux_model: a movie written and demultiplexed. *)
From Coq Require Import ZifyNat Permutation Sorted.
From Verif Require Import Util RangeMap_model SampleTab_model SampleTab_proofs TimeTab_model Box_model Box_proofs Frag_proofs Movie_model Movie_proofs7 Demux_model Demux_proofs.
From Verif Require MuxQueue_model MuxQueue_proofs Walk_model Walk_proofs Walk_props.
Local Open Scope Z_scope.

(** ** One stream *)
Definition fine (g : setting) (most : Z) (l : list (MuxQueue_model.sample * Z)) : Prop :=
  (2 <= length l)%nat /\ Z.of_nat (length l) < 2 ^ 31 /\ 0 <= MuxQueue_model.s_dec (fst (hd (MuxQueue_model.mkS 0 0 [] false, 0) l))
  /\ forall s p, In (s, p) l -> MuxQueue_model.s_dec s <= MuxQueue_model.s_comp s + most /\ g_ts g * (MuxQueue_model.s_comp s + most) <= 2 ^ 62.
Lemma hns_floor : forall ts q, 0 < ts -> 0 <= q -> 10000000 * q < 2 ^ 64 -> 10000000 * q - ts < ts * to_hns ts q <= 10000000 * q.
Proof. intros ts q T Q B. unfold to_hns. rewrite u64_id by lia. pose proof (Z.div_mod (10000000 * q) ts ltac:(lia)). pose proof (Z.mod_pos_bound (10000000 * q) ts T). lia. Qed.
Lemma hns_sum : forall ts a b, 0 < ts -> 0 <= a -> 0 <= b -> 10000000 * (a + b) < 2 ^ 64 -> to_hns ts a + to_hns ts b <= to_hns ts (a + b) <= to_hns ts a + to_hns ts b + 1.
Proof.
  intros ts a b T A B H. pose proof (hns_floor ts a T A ltac:(lia)). pose proof (hns_floor ts b T B ltac:(lia)). pose proof (hns_floor ts (a + b) T ltac:(lia) H). nia.
Qed.
Lemma samples_back : forall file base g most id shift l x, 0 < g_ts g < 2 ^ 32 -> shift <= most -> fine g most l -> shows file base g id shift l x ->
  exists ys, samples_of x = Some ys /\ length ys = length l
  /\ (forall i s p y, nth_error l i = Some (s, p) -> nth_error ys i = Some y -> Walk_model.s_off y = base + p /\ Walk_model.s_size y = zlen (MuxQueue_model.s_body s) /\ bytes_at file (base + p) (length (MuxQueue_model.s_body s)) = Some (MuxQueue_model.s_body s))
  /\ forall zs, length zs = length l -> (forall i s p y, nth_error l i = Some (s, p) -> nth_error ys i = Some y -> nth_error zs i = Some (y, MuxQueue_model.s_body s)) -> reads_as g shift (stream_offset x) l zs.
Proof.
  intros file base g most id shift l x T Sh (F1 & F2 & F3 & F4) W. unfold shows in W. cbv zeta in W. destruct W as (_ & Ets & _ & _ & _ & Ec & _ & Emv & Eo & _ & W).
  set (d0 := MuxQueue_model.s_dec (fst (hd (MuxQueue_model.mkS 0 0 [] false, 0) l))) in *. set (ts := g_ts g) in *.
  assert (Len : Z.to_nat (p_count (x_tables x)) = length l) by (rewrite Ec; lia).
  (* the times of each sample are far from wrapping *)
  assert (B : forall i s p, nth_error l i = Some (s, p) -> exists dt ct du, decoding_time (x_track x) (Z.of_nat i) = Some dt /\ composition_time (x_track x) (Z.of_nat i) = Some ct /\ duration_of (x_track x) (Z.of_nat i) = Some du
     /\ 0 <= dt /\ 0 <= ct /\ 0 <= du /\ 10000000 * dt < 2 ^ 64 /\ 10000000 * ct < 2 ^ 64
     /\ (if (S i <? length l)%nat then decoding_time (x_track x) (Z.of_nat (S i)) = Some (dt + du) else duration_of (x_track x) (Z.of_nat (i - 1)) = Some du)
     /\ - (10000000 + ts) <= 10000000 * dt - ts * (MuxQueue_model.s_dec s - d0) <= 10000000 + ts + ts * Z.of_nat i
     /\ - (20000000 + ts + 10000 * ts) <= 10000000 * ct + 10000 * (ts * x_offset x) - ts * (MuxQueue_model.s_comp s + shift) <= 10000000 + ts + ts * Z.of_nat i).
  { intros i s p Hi. destruct (W i s p Hi) as (_ & (dt & ct & du & A1 & A2 & A3 & A4 & A5 & A6 & A7 & A8 & A9) & _).
    assert (Li : (i < length l)%nat) by (apply nth_error_Some; congruence). destruct (F4 s p (nth_error_In _ _ Hi)) as (G1 & G2).
    assert (Ti : 0 <= ts * Z.of_nat i <= 2 ^ 32 * 2 ^ 31) by (split; [nia|]; apply Z.mul_le_mono_nonneg; lia).
    assert (X1 : ts * (MuxQueue_model.s_dec s - d0) <= 2 ^ 62) by nia. assert (X2 : ts * (MuxQueue_model.s_comp s + shift) <= 2 ^ 62) by nia. assert (X3 : 0 <= ts * x_offset x) by nia.
    exists dt, ct, du. do 6 (split; [assumption|]). split; [lia|]. assert (C : - (20000000 + ts + 10000 * ts) <= 10000000 * ct + 10000 * (ts * x_offset x) - ts * (MuxQueue_model.s_comp s + shift) <= 10000000 + ts + ts * Z.of_nat i) by lia.
    split; [lia|]. split; [exact A7|]. split; [exact A8|exact C]. }
  assert (Bd : forall i s p dt du, nth_error l i = Some (s, p) -> decoding_time (x_track x) (Z.of_nat i) = Some dt -> duration_of (x_track x) (Z.of_nat i) = Some du -> 0 <= dt /\ 0 <= du /\ ((S i < length l)%nat -> 10000000 * (dt + du) < 2 ^ 64)).
  { intros i s p dt du Hi Q1 Q2. destruct (B i s p Hi) as (dt' & ct' & du' & A1 & A2 & A3 & A4 & A5 & A6 & A7 & A8 & A9 & _). rewrite Q1 in A1. injection A1 as <-. rewrite Q2 in A3. injection A3 as <-. split; [exact A4|]. split; [exact A6|]. intros L.
    rewrite (proj2 (Nat.ltb_lt (S i) (length l)) L) in A9. destruct (nth_error l (S i)) as [[s' p']|] eqn:E'; [|apply nth_error_None in E'; lia]. destruct (B _ s' p' E') as (dt2 & _ & _ & C1 & _ & _ & _ & _ & _ & C2 & _). rewrite A9 in C1. injection C1 as <-. exact C2. }
  assert (Pk : forall i s p, nth_error l i = Some (s, p) -> exists dt ct du y, pick_sample x i = Some y /\ y = Walk_model.mkS (base + p) (zlen (MuxQueue_model.s_body s)) (to_hns ts ct) (to_hns ts dt) (to_hns ts du) (if (match g_codec g with Video _ _ _ _ => existsb (fun y => MuxQueue_model.s_key (fst y)) l | Audio _ _ _ => false end) then MuxQueue_model.s_key s else true)
     /\ decoding_time (x_track x) (Z.of_nat i) = Some dt /\ composition_time (x_track x) (Z.of_nat i) = Some ct /\ duration_of (x_track x) (Z.of_nat i) = Some du).
  { intros i s p Hi. destruct (W i s p Hi) as ((off & O0 & O1 & O2 & _) & _ & K). destruct (B i s p Hi) as (dt & ct & du & A1 & A2 & A3 & _). exists dt, ct, du. unfold pick_sample. rewrite O1, O2, A1, A2, A3, K, Ets. destruct (Z.eqb_spec ts 0); [lia|]. eexists. split; [reflexivity|]. rewrite O0. split; [reflexivity|]. split; [reflexivity|]. split; reflexivity. }
  destruct (all_some_map (pick_sample x) (seq 0 (length l))) as (ys & Y1 & Y2 & Y3 & _).
  { intros i Hi. apply in_seq in Hi. destruct (nth_error l i) as [[s p]|] eqn:E; [|apply nth_error_None in E; lia]. destruct (Pk i s p E) as (dt & ct & du & y & Q & _). congruence. }
  rewrite seq_length in Y2. exists ys. split; [unfold samples_of; rewrite Len; exact Y1|]. split; [exact Y2|].
  assert (Yi : forall i s p, nth_error l i = Some (s, p) -> exists dt ct du y, nth_error ys i = Some y /\ y = Walk_model.mkS (base + p) (zlen (MuxQueue_model.s_body s)) (to_hns ts ct) (to_hns ts dt) (to_hns ts du) (if (match g_codec g with Video _ _ _ _ => existsb (fun y => MuxQueue_model.s_key (fst y)) l | Audio _ _ _ => false end) then MuxQueue_model.s_key s else true)
     /\ decoding_time (x_track x) (Z.of_nat i) = Some dt /\ composition_time (x_track x) (Z.of_nat i) = Some ct /\ duration_of (x_track x) (Z.of_nat i) = Some du).
  { intros i s p Hi. assert (Li : (i < length l)%nat) by (apply nth_error_Some; congruence). destruct (Y3 i i) as (b & N1 & N2). { rewrite (nth_error_nth' _ 0%nat) by (rewrite seq_length; exact Li). rewrite seq_nth by exact Li. reflexivity. }
    destruct (Pk i s p Hi) as (dt & ct & du & y & Q & R). rewrite Q in N2. injection N2 as <-. exists dt, ct, du, y. split; [exact N1|exact R]. }
  split.
  - intros i s p y Hi Hy. destruct (Yi i s p Hi) as (dt & ct & du & y' & N & -> & _). rewrite N in Hy. injection Hy as <-. cbn [Walk_model.s_off Walk_model.s_size]. split; [reflexivity|]. split; [reflexivity|].
    destruct (W i s p Hi) as ((off & O0 & O1 & O2 & O3 & O4) & _). subst off. unfold bytes_at. cbv zeta. rewrite O4, Nat.eqb_refl. destruct (Z.leb_spec 0 (base + p)); [reflexivity|lia].
  - intros zs Lz Hz. unfold reads_as. cbv zeta. fold d0 ts. split; [exact Lz|]. intros i s p Hi. assert (Li : (i < length l)%nat) by (apply nth_error_Some; congruence).
    destruct (Yi i s p Hi) as (dt & ct & du & y & N & Ey & D1 & D2 & D3). exists y. split; [apply (Hz i s p y Hi N)|]. subst y. cbn [Walk_model.s_sync Walk_model.s_dec Walk_model.s_comp Walk_model.s_dur]. split; [reflexivity|].
    destruct (B i s p Hi) as (dt' & ct' & du' & A1 & A2 & A3 & A4 & A5 & A6 & A7 & A8 & A9 & A10 & A11). rewrite D1 in A1. injection A1 as <-. rewrite D2 in A2. injection A2 as <-. rewrite D3 in A3. injection A3 as <-.
    pose proof (hns_floor ts dt (proj1 T) A4 A7) as H1. pose proof (hns_floor ts ct (proj1 T) A5 A8) as H2.
    assert (Off : stream_offset x = 10000 * x_offset x). { unfold stream_offset, to_hns. rewrite Emv, u64_id by lia. replace (10000000 * x_offset x) with (10000 * x_offset x * 1000) by lia. apply Z.div_mul. lia. }
    rewrite Off. split; [|split].
    + rewrite !Z.mul_sub_distr_l in *. lia.
    + replace (ts * (to_hns ts ct + 10000 * x_offset x - (MuxQueue_model.s_comp s + shift))) with (ts * to_hns ts ct + 10000 * (ts * x_offset x) - ts * (MuxQueue_model.s_comp s + shift)) by ring. lia.
    + destruct (Nat.ltb_spec (S i) (length l)) as [Q|Q].
      * destruct (nth_error l (S i)) as [[s' p']|] eqn:E'; [|apply nth_error_None in E'; lia]. destruct (Yi _ s' p' E') as (dt2 & ct2 & du2 & y2 & N2 & Ey2 & C1 & _). rewrite (Hz _ _ _ _ E' N2). cbn [fst]. rewrite Ey2. cbn [Walk_model.s_dec]. rewrite A9 in C1. injection C1 as <-.
        apply hns_sum; [lia|lia|lia|]. exact (proj2 (proj2 (Bd i s p dt du Hi D1 D3)) Q).
      * rewrite (proj2 (nth_error_None zs (S i))) by lia. intros y' Hy'. destruct (nth_error l (i - 1)) as [[s' p']|] eqn:E'; [|apply nth_error_None in E'; lia]. destruct (Yi _ s' p' E') as (dt2 & ct2 & du2 & y2 & N2 & Ey2 & _ & _ & C3). rewrite (Hz _ _ _ _ E' N2) in Hy'. injection Hy' as <-. cbn [fst]. rewrite Ey2. cbn [Walk_model.s_dur]. rewrite A9 in C3. injection C3 as <-. reflexivity.
Qed.

(** ** The bytes *)
Definition bytes_of (file : list Z) (y : Walk_model.sample) : list Z := match bytes_at file (Walk_model.s_off y) (Z.to_nat (Walk_model.s_size y)) with Some b => b | None => [] end.
Lemma with_bytes_all : forall file l, (forall i y, In (i, y) l -> bytes_at file (Walk_model.s_off y) (Z.to_nat (Walk_model.s_size y)) <> None) ->
  all_some (map (with_bytes file) l) = Some (map (fun p => (p, bytes_of file (snd p))) l).
Proof.
  intros file. induction l as [|[i y] l IH]; intros H; [reflexivity|]. cbn [map all_some]. unfold with_bytes at 1, bytes_of at 1. cbn [snd].
  specialize (IH (fun j z Hz => H j z (or_intror Hz))). specialize (H i y (or_introl eq_refl)). destruct (bytes_at file (Walk_model.s_off y) (Z.to_nat (Walk_model.s_size y))) as [b|]; [|contradiction]. rewrite IH. reflexivity.
Qed.
Lemma got_map : forall file k l, got k (map (fun p => (p, bytes_of file (snd p))) l) = map (fun y => (y, bytes_of file y)) (Walk_model.of_stream k l).
Proof.
  intros file k. induction l as [|[i y] l IH]; [reflexivity|]. rewrite of_stream_cons. unfold got in *. cbn [map filter fst]. destruct (Nat.eqb i k); cbn [map app fst snd]; rewrite IH; reflexivity.
Qed.
Lemma rest_all : forall l, Walk_model.rest (Walk_model.mkStream l 0) = l. Proof. reflexivity. Qed.
Lemma remaining_all : forall ls e, Walk_model.remaining (Walk_model.mkRd (map (fun l => Walk_model.mkStream l 0) ls) 0 e) = length (concat ls).
Proof. intros ls e. unfold Walk_model.remaining. cbn [Walk_model.r_streams]. induction ls as [|l ls IH]; [reflexivity|]. cbn [map list_sum fold_right concat] in *. rewrite app_length, rest_all. unfold list_sum in IH. rewrite IH. reflexivity. Qed.

(** ** All streams in the order of the file *)
Definition pl (a b : Z * Z) : Prop := 0 < snd a /\ fst a + snd a <= fst b.
Definition wplace (base : Z) (a : MuxQueue_model.sample * Z) : Z * Z := (base + snd a, zlen (MuxQueue_model.s_body (fst a))).
Definition place (y : Walk_model.sample) : Z * Z := (Walk_model.s_off y, Walk_model.s_size y).
Lemma laid_sorted : forall base tr pos, MuxQueue_model.laid_out pos tr -> Forall (fun a => MuxQueue_model.s_body (fst a) <> []) tr -> StronglySorted pl (map (wplace base) tr) /\ Forall (fun a => pos <= snd a) tr.
Proof.
  intros base. induction tr as [|[s p] tr IH]; intros pos L N; [split; constructor|]. cbn [MuxQueue_model.laid_out] in L. destruct L as [-> L]. destruct (IH _ L (Forall_inv_tail N)) as (I1 & I2). pose proof (Forall_inv N) as N0. cbn [fst] in N0.
  assert (P : 0 < Z.of_nat (length (MuxQueue_model.s_body s))) by (destruct (MuxQueue_model.s_body s); [contradiction|cbn; lia]).
  split; [cbn [map]; constructor; [exact I1|]; apply Forall_map; eapply Forall_impl; [|exact I2]; intros a Ha; cbv beta in Ha; unfold pl, wplace, zlen; cbn [fst snd]; lia|].
  constructor; [cbn [snd]; lia|]. eapply Forall_impl; [|exact I2]. intros a Ha. cbv beta in *. lia.
Qed.
Lemma laid_bytes : forall file base tr pos, 0 <= base -> 0 <= pos -> MuxQueue_model.laid_out pos tr -> (forall s p, In (s, p) tr -> firstn (length (MuxQueue_model.s_body s)) (skipn (Z.to_nat (base + p)) file) = MuxQueue_model.s_body s) ->
  concat (map (fun q => firstn (Z.to_nat (snd q)) (skipn (Z.to_nat (fst q)) file)) (map (wplace base) tr)) = concat (map (fun x => MuxQueue_model.s_body (fst x)) tr).
Proof.
  intros file base tr pos B P L H. f_equal. rewrite map_map. apply map_ext_in. intros [s p] Hp. unfold wplace. cbn [fst snd]. unfold zlen. rewrite Nat2Z.id. apply H. exact Hp.
Qed.

Lemma demux_back : forall uc dist inc n h m now ctts gs most, let none := (MuxQueue_model.mkS 0 0 [] false, 0) in let wr k := MuxQueue_model.written (nth k (MuxQueue_model.m_streams m) MuxQueue_model.stream0) in
  MuxQueue_model.after uc dist inc n h m -> length gs = n -> (0 < n)%nat ->
  (forall k g, nth_error gs k = Some g -> setting_ok g /\ g_ctts g <= most /\ samples_ok g most (map (fun x => (MuxQueue_model.s_comp (fst x), MuxQueue_model.s_dec (fst x), zlen (MuxQueue_model.s_body (fst x)))) (wr k))
     /\ forall s p, In (s, p) (wr k) -> g_ts g * (MuxQueue_model.s_comp s + most) <= 2 ^ 62) ->
  zlen (MuxQueue_model.m_file m) < 2 ^ 32 ->
  exists file, movie_file now ctts gs m = Some file /\ (zlen file < 2 ^ 32 ->
    exists mv out j big, demux file = Some (mv, out) /\ length (v_streams mv) = n /\ (forall o, In o out -> (fst (fst o) < n)%nat)
    /\ (j < n)%nat /\ (forall k, (k < n)%nat -> MuxQueue_model.s_comp (fst (hd none (wr j))) <= MuxQueue_model.s_comp (fst (hd none (wr k))))
    /\ In big (map g_ctts gs) /\ (forall g, In g gs -> g_ctts g <= big)
    /\ (forall k g x, nth_error gs k = Some g -> nth_error (v_streams mv) k = Some x ->
        reads_as g (big - Z.min (MuxQueue_model.s_dec (fst (hd none (wr k)))) (MuxQueue_model.s_dec (fst (hd none (wr j))))) (stream_offset x) (wr k) (got k out))
    /\ ((forall k s p, In (s, p) (wr k) -> MuxQueue_model.s_body s <> []) -> read_bytes out = MuxQueue_model.m_file m)).
Proof.
  intros uc dist inc n h m now ctts gs most none wr A Lg Hn Hs Hb.
  destruct (movie_read_back uc dist inc n h m now ctts gs most A Lg Hn) as (file & E & R); [intros k g Hk; destruct (Hs k g Hk) as (Q1 & Q2 & Q3 & _); split; [exact Q1|]; split; [exact Q2|exact Q3]|exact Hb|].
  exists file. split; [exact E|]. intros Hz. destruct (R Hz) as (mv & j & big & Rm & Lv & Rt & Re & Rp & Rq & _ & _ & Rj & Rj2 & Rg1 & Rg2 & Rs). clear R.
  set (base := v_mdat mv + 8) in *. set (ss := MuxQueue_model.m_streams m) in *. set (body := MuxQueue_model.m_file m) in *.
  destruct (MuxQueue_proofs.after_kept _ _ _ _ _ _ A) as (Ls & _ & tr & Ptr & Ltr & Efile). fold ss in Ls, Ptr. fold body in Efile. pose proof (after_asc _ _ _ _ _ _ A) as Asc. fold ss body in Asc. rewrite Forall_forall in Asc.
  assert (Gk : forall k, (k < n)%nat -> exists g x, nth_error gs k = Some g /\ nth_error (v_streams mv) k = Some x).
  { intros k Hk. destruct (nth_error gs k) as [g|] eqn:E1; [|apply nth_error_None in E1; lia]. destruct (nth_error (v_streams mv) k) as [x|] eqn:E2; [|apply nth_error_None in E2; lia]. exists g, x. split; reflexivity. }
  assert (Fin : forall k g, nth_error gs k = Some g -> 0 < g_ts g < 2 ^ 32 /\ fine g most (wr k)).
  { intros k g Hk. destruct (Hs k g Hk) as ((G1 & _) & Q2 & Q3 & Q4). split; [exact G1|]. unfold samples_ok in Q3. cbv zeta in Q3. rewrite !map_length, !map_map in Q3. destruct Q3 as (S1 & S2 & _ & S4 & _ & _ & _ & h0 & _ & _ & _ & S11). unfold fine. split; [exact S1|]. split; [exact S2|].
    split; [destruct (wr k) as [|y w]; [cbn in S1; lia|cbn in S4 |- *; lia]|]. intros s p Hp. split; [|apply Q4 with p; exact Hp]. rewrite Forall_forall in S11. pose proof (S11 _ (in_map _ _ _ Hp)) as Q. cbn [fst snd] in Q. lia. }
  assert (Dec : forall k, (k < n)%nat -> 0 <= MuxQueue_model.s_dec (fst (hd none (wr k)))).
  { intros k Hk. destruct (Gk k Hk) as (g & _ & Eg & _). destruct (Fin k g Eg) as (_ & _ & _ & Q & _). exact Q. }
  assert (Big : big <= most) by (apply in_map_iff in Rg1; destruct Rg1 as (g & <- & Ig); apply In_nth_error in Ig; destruct Ig as (k & Ek); apply (Hs k g Ek)).
  set (sh := fun k => big - Z.min (MuxQueue_model.s_dec (fst (hd none (wr k)))) (MuxQueue_model.s_dec (fst (hd none (wr j))))).
  assert (Sb : forall k g x, nth_error gs k = Some g -> nth_error (v_streams mv) k = Some x -> exists ys, samples_of x = Some ys /\ length ys = length (wr k)
    /\ (forall i s p y, nth_error (wr k) i = Some (s, p) -> nth_error ys i = Some y -> Walk_model.s_off y = base + p /\ Walk_model.s_size y = zlen (MuxQueue_model.s_body s) /\ bytes_at file (base + p) (length (MuxQueue_model.s_body s)) = Some (MuxQueue_model.s_body s))
    /\ forall zs, length zs = length (wr k) -> (forall i s p y, nth_error (wr k) i = Some (s, p) -> nth_error ys i = Some y -> nth_error zs i = Some (y, MuxQueue_model.s_body s)) -> reads_as g (sh k) (stream_offset x) (wr k) zs).
  { intros k g x Eg Ex. destruct (Fin k g Eg) as (T & F). assert (K : (k < n)%nat) by (rewrite <- Lg; apply nth_error_Some; congruence). apply (samples_back file base g most (Z.of_nat k + 1) (sh k) (wr k) x T); [|exact F|exact (Rs k g x Eg Ex)]. unfold sh. pose proof (Dec k K). pose proof (Dec j Rj). lia. }
  assert (Kx : forall x, In x (v_streams mv) -> exists k g, (k < n)%nat /\ nth_error gs k = Some g /\ nth_error (v_streams mv) k = Some x).
  { intros x Hx. apply In_nth_error in Hx. destruct Hx as (k & Ek). assert (K : (k < n)%nat) by (rewrite <- Lv; apply nth_error_Some; congruence). destruct (Gk k K) as (g & x' & Eg & Ex'). exists k, g. split; [exact K|]. split; [exact Eg|exact Ek]. }
  destruct (all_some_map samples_of (v_streams mv)) as (ls & L1 & L2 & L3 & _). { intros x Hx. destruct (Kx x Hx) as (k & g & K & Eg & Ex). destruct (Sb k g x Eg Ex) as (ys & -> & _). discriminate. }
  rewrite Lv in L2.
  assert (Lk : forall k, (k < n)%nat -> exists g x ys, nth_error gs k = Some g /\ nth_error (v_streams mv) k = Some x /\ nth_error ls k = Some ys /\ length ys = length (wr k)
    /\ (forall i s p y, nth_error (wr k) i = Some (s, p) -> nth_error ys i = Some y -> Walk_model.s_off y = base + p /\ Walk_model.s_size y = zlen (MuxQueue_model.s_body s) /\ bytes_at file (base + p) (length (MuxQueue_model.s_body s)) = Some (MuxQueue_model.s_body s))
    /\ forall zs, length zs = length (wr k) -> (forall i s p y, nth_error (wr k) i = Some (s, p) -> nth_error ys i = Some y -> nth_error zs i = Some (y, MuxQueue_model.s_body s)) -> reads_as g (sh k) (stream_offset x) (wr k) zs).
  { intros k K. destruct (Gk k K) as (g & x & Eg & Ex). destruct (L3 k x Ex) as (ys & N1 & N2). destruct (Sb k g x Eg Ex) as (ys' & Q & Q2). rewrite N2 in Q. injection Q as <-. exists g, x, ys. split; [exact Eg|]. split; [exact Ex|]. split; [exact N1|exact Q2]. }
  assert (Wk : forall k s p, (k < n)%nat -> In (s, p) (wr k) -> In (s, p) tr).
  { intros k s p K Hp. apply (Permutation_in _ (Permutation_sym Ptr)). apply in_concat. exists (wr k). split; [|exact Hp]. unfold wr. fold ss. apply in_map. apply nth_In. lia. }
  assert (Pos : forall k s p, (k < n)%nat -> In (s, p) (wr k) -> 0 <= p /\ p + zlen (MuxQueue_model.s_body s) <= zlen body).
  { intros k s p K Hp. destruct (MuxQueue_proofs.after_bytes _ _ _ _ _ _ k s p A Hp) as (B1 & _). split; [exact B1|]. destruct (Asc (nth k ss MuxQueue_model.stream0)) as (_ & Q); [apply nth_In; lia|]. rewrite Forall_forall in Q. apply (Q (s, p)). exact Hp. }
  assert (Zb : base + zlen body <= zlen file) by (rewrite <- Re, <- Rq; unfold base; lia).
  assert (Yk : forall k ys y, nth_error ls k = Some ys -> In y ys -> (k < n)%nat /\ exists s p, In (s, p) (wr k) /\ Walk_model.s_off y = base + p /\ Walk_model.s_size y = zlen (MuxQueue_model.s_body s) /\ bytes_at file (base + p) (length (MuxQueue_model.s_body s)) = Some (MuxQueue_model.s_body s)).
  { intros k ys y Ek Hy. assert (K : (k < n)%nat) by (rewrite <- L2; apply nth_error_Some; congruence). split; [exact K|]. destruct (Lk k K) as (g & x & ys' & _ & _ & Q & Ly & Q2 & _). rewrite Ek in Q. injection Q as <-. apply In_nth_error in Hy. destruct Hy as (i & Hi).
    assert (Li : (i < length (wr k))%nat) by (rewrite <- Ly; apply nth_error_Some; congruence). destruct (nth_error (wr k) i) as [[s p]|] eqn:Ew; [|apply nth_error_None in Ew; lia]. exists s, p. split; [exact (nth_error_In _ _ Ew)|]. exact (Q2 i s p y Ew Hi). }
  set (r := Walk_model.mkRd (map (fun l => Walk_model.mkStream l 0) ls) 0 (v_end mv)).
  assert (Rr : Walk_model.readable r).
  { unfold Walk_model.readable. cbn [r Walk_model.r_mdat_end Walk_model.r_streams]. rewrite Re. split; [lia|]. intros st Hst. apply in_map_iff in Hst. destruct Hst as (ys & <- & Hys). rewrite rest_all. apply In_nth_error in Hys. destruct Hys as (k & Ek). apply Forall_forall. intros y Hy. destruct (Yk k ys y Ek Hy) as (K & s & p & Hp & O1 & O2 & _). destruct (Pos k s p K Hp) as (P1 & P2). unfold Walk_model.inside. rewrite O1, O2. pose proof (zlen_nonneg (MuxQueue_model.s_body s)). lia. }
  destruct (Walk_props.C53_complete r (S (length (concat ls))) Rr) as (l & r' & W1 & W2 & W3 & W4 & _); [unfold r; rewrite remaining_all; lia|].
  assert (W4' : forall i y, In (i, y) l -> (i < n)%nat) by (intros i y Hi; specialize (W4 i y Hi); cbn [r Walk_model.r_streams] in W4; rewrite map_length in W4; lia).
  assert (Ok : forall k ys, nth_error ls k = Some ys -> Walk_model.of_stream k l = ys). { intros k ys Ek. rewrite (W3 k (Walk_model.mkStream ys 0)); [reflexivity|]. cbn [r Walk_model.r_streams]. rewrite nth_error_map, Ek. reflexivity. }
  assert (Yl : forall k y, In (k, y) l -> exists ys, nth_error ls k = Some ys /\ In y ys).
  { intros k y Hy. specialize (W4' k y Hy). destruct (Lk k W4') as (g & x & ys & _ & _ & Q & _). exists ys. split; [exact Q|]. rewrite <- (Ok k ys Q). unfold Walk_model.of_stream. apply in_map_iff. exists (k, y). split; [reflexivity|]. apply filter_In. split; [exact Hy|]. cbn [fst]. apply Nat.eqb_refl. }
  assert (Bys : forall k ys y s p, nth_error ls k = Some ys -> Walk_model.s_off y = base + p -> Walk_model.s_size y = zlen (MuxQueue_model.s_body s) -> bytes_at file (base + p) (length (MuxQueue_model.s_body s)) = Some (MuxQueue_model.s_body s) -> bytes_at file (Walk_model.s_off y) (Z.to_nat (Walk_model.s_size y)) = Some (MuxQueue_model.s_body s)).
  { intros k ys y s p _ O1 O2 O3. rewrite O1, O2. unfold zlen. rewrite Nat2Z.id. exact O3. }
  eexists mv, _, j, big. split; [|split; [exact Lv|]].
  { unfold demux. rewrite Rm, L1. fold r. rewrite W1. rewrite with_bytes_all; [reflexivity|]. intros k y Hy. destruct (Yl k y Hy) as (ys & Ek & Iy). destruct (Yk k ys y Ek Iy) as (_ & s & p & _ & O1 & O2 & O3). rewrite (Bys k ys y s p Ek O1 O2 O3). discriminate. }
  split. { intros o Ho. apply in_map_iff in Ho. destruct Ho as ([k y] & <- & Hy). cbn [fst]. exact (W4' k y Hy). }
  split; [exact Rj|]. split; [exact Rj2|]. split; [exact Rg1|]. split; [exact Rg2|]. split.
  - intros k g x Eg Ex. assert (K : (k < n)%nat) by (rewrite <- Lg; apply nth_error_Some; congruence). destruct (Lk k K) as (g' & x' & ys & Eg' & Ex' & Ek & Ly & Q1 & Q2). rewrite Eg in Eg'. injection Eg' as <-. rewrite Ex in Ex'. injection Ex' as <-. fold (sh k).
    rewrite got_map, (Ok k ys Ek). apply Q2; [rewrite map_length; exact Ly|]. intros i s p y Hi Hy. rewrite nth_error_map, Hy. cbn [option_map]. destruct (Q1 i s p y Hi Hy) as (O1 & O2 & O3). unfold bytes_of. rewrite (Bys k ys y s p Ek O1 O2 O3). reflexivity.
  - intros Ne. assert (Net : Forall (fun a => MuxQueue_model.s_body (fst a) <> []) tr).
    { apply Forall_forall. intros [s p] Hp. apply (Permutation_in _ Ptr) in Hp. apply in_concat in Hp. destruct Hp as (w & Iw & Hp). apply in_map_iff in Iw. destruct Iw as (st & <- & Ist). apply (In_nth _ _ MuxQueue_model.stream0) in Ist. destruct Ist as (k & Hk & <-). cbn [fst]. exact (Ne k s p Hp). }
    destruct (laid_sorted base tr 0 Ltr Net) as (Str & _).
    (* the places of what was read are those of what was written *)
    assert (Pw : map (map place) ls = map (map (wplace base)) (map MuxQueue_model.written ss)).
    { apply nth_ext with (d := []) (d' := []); [rewrite !map_length; lia|]. intros k Hk. rewrite map_length in Hk. assert (K : (k < n)%nat) by lia. destruct (Lk k K) as (g & x & ys & _ & _ & Ek & Ly & Q1 & _).
      rewrite (nth_indep _ [] (map place [])) by (rewrite map_length; exact Hk). rewrite (map_nth (map place)). rewrite (nth_error_nth _ _ [] Ek). rewrite map_map. rewrite (nth_indep _ [] ((fun st => map (wplace base) (MuxQueue_model.written st)) MuxQueue_model.stream0)) by (rewrite map_length; lia). rewrite (map_nth (fun st => map (wplace base) (MuxQueue_model.written st))). fold (wr k).
      assert (G : forall (a : list Walk_model.sample) b, length a = length b -> (forall i s p y, nth_error b i = Some (s, p) -> nth_error a i = Some y -> Walk_model.s_off y = base + p /\ Walk_model.s_size y = zlen (MuxQueue_model.s_body s)) -> map place a = map (wplace base) b).
      { induction a as [|y a IH]; intros [|[s p] b] L H; try discriminate; [reflexivity|]. cbn [map]. f_equal; [destruct (H 0%nat s p y eq_refl eq_refl) as (O1 & O2); unfold place, wplace; cbn [fst snd]; rewrite O1, O2; reflexivity|]. apply IH; [cbn [length] in L; lia|]. intros i s' p' y' H1 H2. exact (H (S i) s' p' y' H1 H2). }
      apply G; [exact Ly|]. intros i s p y H1 H2. destruct (Q1 i s p y H1 H2) as (O1 & O2 & _). split; assumption. }
    assert (Perm : Permutation (map place (map snd l)) (map (wplace base) tr)).
    { rewrite (streams_perm n l W4'). assert (Els : map (fun k => Walk_model.of_stream k l) (seq 0 n) = ls).
      { apply nth_ext with (d := []) (d' := []); [rewrite map_length, seq_length; lia|]. intros k Hk. rewrite map_length, seq_length in Hk. destruct (Lk k Hk) as (g & x & ys & _ & _ & Ek & _). rewrite (nth_error_nth _ _ [] Ek). rewrite (nth_indep _ [] ((fun k => Walk_model.of_stream k l) 0%nat)) by (rewrite map_length, seq_length; exact Hk). rewrite (map_nth (fun k => Walk_model.of_stream k l)). rewrite seq_nth by exact Hk. apply Ok. exact Ek. }
      rewrite Els. rewrite concat_map, Pw, <- concat_map. apply Permutation_map. apply Permutation_sym. exact Ptr. }
    assert (Sl : StronglySorted pl (map place (map snd l))).
    { apply sorted_map with (R' := Walk_model.before); [intros a b _ _ Q; exact Q|]. apply (Walk_props.C53_file_order r (S (length (concat ls))) l r' Rr); [unfold r; rewrite remaining_all; lia|reflexivity|exact W1| |].
      - intros st Hst. cbn [r Walk_model.r_streams] in Hst. apply in_map_iff in Hst. destruct Hst as (ys & <- & Hys). rewrite rest_all. apply In_nth_error in Hys. destruct Hys as (k & Ek).
        assert (K : (k < n)%nat) by (rewrite <- L2; apply nth_error_Some; congruence). destruct (Asc (nth k ss MuxQueue_model.stream0)) as (So & _); [apply nth_In; lia|]. fold (wr k) in So.
        destruct (Lk k K) as (g & x & ys' & _ & _ & Q & Ly & Q1 & _). rewrite Ek in Q. injection Q as <-.
        assert (Nk : forall s p, In (s, p) (wr k) -> 0 < zlen (MuxQueue_model.s_body s)) by (intros s p Hp; pose proof (Ne k s p Hp); destruct (MuxQueue_model.s_body s); [contradiction|unfold zlen; cbn; lia]).
        assert (G : forall b (a : list Walk_model.sample), length a = length b -> StronglySorted ahead b -> (forall s p, In (s, p) b -> 0 < zlen (MuxQueue_model.s_body s)) -> (forall i s p y, nth_error b i = Some (s, p) -> nth_error a i = Some y -> Walk_model.s_off y = base + p /\ Walk_model.s_size y = zlen (MuxQueue_model.s_body s)) -> StronglySorted Walk_model.before a /\ Forall (fun y => 0 < Walk_model.s_size y) a).
        { induction b as [|[s p] b IH]; intros [|y a] L So' Np H; try discriminate; [split; constructor|]. cbn [length] in L. inversion So' as [|? ? So1 So2]; subst. destruct (H 0%nat s p y eq_refl eq_refl) as (O1 & O2).
          destruct (IH a ltac:(lia) So1 (fun s p Hp => Np s p (or_intror Hp)) (fun i s p y H1 H2 => H (S i) s p y H1 H2)) as (I1 & I2). specialize (Np s p (or_introl eq_refl)). split; [|constructor; [lia|exact I2]]. constructor; [exact I1|]. apply Forall_forall. intros y' Hy'. apply In_nth_error in Hy'. destruct Hy' as (i & Hi).
          assert (Li : (i < length b)%nat) by (assert (i < length a)%nat by (apply nth_error_Some; congruence); lia). destruct (nth_error b i) as [[s' p']|] eqn:Eb; [|apply nth_error_None in Eb; lia]. destruct (H (S i) s' p' y' Eb Hi) as (O3 & O4). rewrite Forall_forall in So2. specialize (So2 _ (nth_error_In _ _ Eb)). unfold ahead in So2. cbn [fst snd] in So2. unfold Walk_model.before. lia. }
        apply (G (wr k) ys Ly So Nk). intros i s p y H1 H2. destruct (Q1 i s p y H1 H2) as (O1 & O2 & _). split; assumption.
      - intros i i' st st' y y' Ei Ei' NE Hy Hy'. cbn [r Walk_model.r_streams] in Ei, Ei'. rewrite nth_error_map in Ei, Ei'. destruct (nth_error ls i) as [ys|] eqn:E1; [|discriminate]. destruct (nth_error ls i') as [ys'|] eqn:E2; [|discriminate]. injection Ei as <-. injection Ei' as <-. rewrite rest_all in Hy, Hy'.
        destruct (Yk i ys y E1 Hy) as (K1 & s & p & Hp & O1 & O2 & _). destruct (Yk i' ys' y' E2 Hy') as (K2 & s' & p' & Hp' & O1' & O2' & _).
        assert (Nd : NoDup (concat (map MuxQueue_model.written ss))). { apply (Permutation_NoDup Ptr). apply NoDup_map_inv with (f := wplace base). apply (sorted_nodup pl); [intros a (Q1 & Q2); lia|exact Str]. }
        assert (D : (s, p) <> (s', p')).
        { intros Q. rewrite <- Q in Hp'. refine (nodup_apart (map MuxQueue_model.written ss) i i' (wr i) (wr i') (s, p) Nd _ _ NE Hp Hp'); rewrite nth_error_map; unfold wr; fold ss; rewrite (nth_error_nth' ss MuxQueue_model.stream0) by lia; reflexivity. }
        assert (D2 : wplace base (s, p) <> wplace base (s', p')).
        { intros Q. apply D. assert (Ntr : NoDup (map (wplace base) tr)) by (apply (sorted_nodup pl); [intros a (Q1 & Q2); lia|exact Str]).
          clear - Q Ntr Hp Hp' Wk K1 K2. pose proof (Wk i s p K1 Hp) as T1. pose proof (Wk i' s' p' K2 Hp') as T2. clear - Q Ntr T1 T2. revert T1 T2 Q. generalize (s, p) (s', p'). intros a b T1 T2 Q. induction tr as [|t tr IH]; [destruct T1|]. cbn [map] in Ntr. inversion Ntr as [|? ? N1 N2]; subst.
          destruct T1 as [->|T1], T2 as [->|T2]; [reflexivity|exfalso; apply N1; rewrite Q; apply in_map; exact T2|exfalso; apply N1; rewrite <- Q; apply in_map; exact T1|]. exact (IH N2 T1 T2). }
        destruct (sorted_cmp pl _ Str (wplace base (s, p)) (wplace base (s', p'))) as [Q|Q]; [apply in_map; exact (Wk i s p K1 Hp)|apply in_map; exact (Wk i' s' p' K2 Hp')|exact D2| |]; unfold pl, wplace in Q; cbn [fst snd] in Q; unfold Walk_model.apart, Walk_model.before; [left|right]; lia. }
    assert (Eq : map place (map snd l) = map (wplace base) tr) by (apply (sorted_unique pl); [intros a b (Q1 & Q2) (Q3 & Q4); lia|exact Sl|exact Str|exact Perm]).
    rewrite Efile. assert (Hbase : 0 <= base) by (unfold base; lia).
    rewrite <- (laid_bytes file base tr 0 Hbase ltac:(lia) Ltr).
    + rewrite <- Eq. unfold read_bytes. rewrite !map_map. f_equal. apply map_ext_in. intros [k y] Hy. cbn [snd]. destruct (Yl k y Hy) as (ys & Ek & Iy). destruct (Yk k ys y Ek Iy) as (_ & s & p & _ & O1 & O2 & O3). unfold bytes_of. rewrite (Bys k ys y s p Ek O1 O2 O3).
      unfold place. cbn [fst snd]. rewrite O1, O2. unfold zlen. rewrite Nat2Z.id. unfold bytes_at in O3. cbv zeta in O3. destruct ((0 <=? base + p) && _); [|discriminate]. injection O3 as O3. rewrite O3. reflexivity.
    + intros s p Hp. apply (Permutation_in _ Ptr) in Hp. apply in_concat in Hp. destruct Hp as (w & Iw & Hp). apply in_map_iff in Iw. destruct Iw as (st & <- & Ist). apply (In_nth _ _ MuxQueue_model.stream0) in Ist. destruct Ist as (k & Hk & <-). assert (K : (k < n)%nat) by lia. fold (wr k) in Hp.
      destruct (Lk k K) as (g & x & ys & _ & _ & Ek & Ly & Q1 & _). apply In_nth_error in Hp. destruct Hp as (i & Hi). destruct (nth_error ys i) as [y|] eqn:Ey; [|apply nth_error_None in Ey; assert (i < length (wr k))%nat by (apply nth_error_Some; congruence); lia]. destruct (Q1 i s p y Hi Ey) as (_ & _ & O3).
      unfold bytes_at in O3. cbv zeta in O3. destruct ((0 <=? base + p) && _); [|discriminate]. injection O3 as O3. exact O3.
Qed.
