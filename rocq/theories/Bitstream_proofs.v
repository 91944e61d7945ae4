From Coq Require Import ZifyNat.
From Verif Require Import Util Bits_spec Bits_lemmas Bitstream_model.
Local Ltac Zify.zify_post_hook ::= Z.div_mod_to_equations.

(** ** word load *)
Lemma tmask_ones n : (n <= 32)%nat -> nth n tmask 0 = Z.ones (Z.of_nat n).
Proof.
  intros H. assert (E : forallb (fun i => nth (Z.to_nat i) tmask 0 =? Z.ones i) (zseq 0 33) = true) by (vm_compute; reflexivity).
  pose proof (sweep _ 0 33 E (Z.of_nat n) ltac:(lia)) as E1. cbv beta in E1. rewrite Nat2Z.id in E1. lia.
Qed.

Definition gbitf (m : nat -> Z) (k : nat) : bool := Z.testbit (m (k / 8)%nat) (7 - Z.of_nat (k mod 8)).

Lemma byte_high b j : is_byte b -> 8 <= j -> Z.testbit b j = false.
Proof. intros Hb Hj. apply (testbit_high b 8); [exact Hb|lia]. Qed.

Lemma testbit_ones_b n j : 0 <= n -> 0 <= j -> Z.testbit (Z.ones n) j = (j <? n).
Proof.
  intros Hn Hj. destruct (Z.ltb_spec j n).
  - apply Z.ones_spec_low. lia.
  - apply Z.ones_spec_high. lia.
Qed.

Lemma word4_testbit b0 b1 b2 b3 j : is_byte b0 -> is_byte b1 -> is_byte b2 -> is_byte b3 -> 0 <= j ->
  Z.testbit (Z.lor (Z.lor (Z.lor (Z.shiftl b0 24) (Z.shiftl b1 16)) (Z.shiftl b2 8)) b3) j =
  if j <? 8 then Z.testbit b3 j else if j <? 16 then Z.testbit b2 (j-8)
  else if j <? 24 then Z.testbit b1 (j-16) else Z.testbit b0 (j-24).
Proof.
  intros H0 H1 H2 H3 Hj. rewrite !Z.lor_spec, !Z.shiftl_spec by lia.
  destruct (Z.ltb_spec j 8); [|destruct (Z.ltb_spec j 16); [|destruct (Z.ltb_spec j 24)]].
  - rewrite (Z.testbit_neg_r b0), (Z.testbit_neg_r b1), (Z.testbit_neg_r b2) by lia. reflexivity.
  - rewrite (Z.testbit_neg_r b0), (Z.testbit_neg_r b1) by lia. rewrite (byte_high b3) by (auto; lia).
    rewrite orb_false_r. reflexivity.
  - rewrite (Z.testbit_neg_r b0) by lia. rewrite (byte_high b3), (byte_high b2) by (auto; lia).
    rewrite !orb_false_r. reflexivity.
  - rewrite (byte_high b3), (byte_high b2), (byte_high b1) by (auto; lia). rewrite !orb_false_r. reflexivity.
Qed.

Lemma load_bits_testbit m c n j : (forall i, is_byte (m i)) -> (1 <= n <= 32)%nat -> 0 <= j ->
  Z.testbit (load_bits m c n) j = (j <? Z.of_nat n) && gbitf m (Z.to_nat (Z.of_nat c + Z.of_nat n - 1 - j)).
Proof.
  intros HB Hn Hj. unfold load_bits. rewrite Z.land_spec, tmask_ones by lia.
  rewrite testbit_ones_b by lia.
  destruct (Z.ltb_spec j (Z.of_nat n)) as [Hl|Hl]; [|rewrite andb_false_r; reflexivity].
  rewrite andb_true_r, andb_true_l.
  set (s := 32 - (Z.of_nat (c mod 8) + Z.of_nat n)).
  set (k := Z.to_nat (Z.of_nat c + Z.of_nat n - 1 - j)).
  set (q := (c / 8)%nat).
  unfold gbitf.
  assert (Hs : s = 32 - (Z.of_nat (c mod 8) + Z.of_nat n)) by reflexivity.
  assert (Hk : Z.of_nat k = Z.of_nat c + Z.of_nat n - 1 - j) by lia.
  assert (Hq : q = (c / 8)%nat) by reflexivity.
  clearbody s k q.
  destruct (Z.leb_spec 0 s) as [Hs0|Hs0].
  - rewrite Z.shiftr_spec by lia. rewrite word4_testbit by (auto; lia).
    destruct (Z.ltb_spec (j + s) 8); [|destruct (Z.ltb_spec (j + s) 16); [|destruct (Z.ltb_spec (j + s) 24)]].
    + replace (k / 8)%nat with (q + 3)%nat by lia. f_equal. lia.
    + replace (k / 8)%nat with (q + 2)%nat by lia. f_equal. lia.
    + replace (k / 8)%nat with (q + 1)%nat by lia. f_equal. lia.
    + replace (k / 8)%nat with q by lia. f_equal. lia.
  - rewrite Z.lor_spec. unfold u32. rewrite Z.mod_pow2_bits_low by lia.
    rewrite Z.shiftl_spec by lia. rewrite Z.shiftr_spec by lia.
    destruct (Z.ltb_spec j (- s)) as [Hjs|Hjs].
    + rewrite (Z.testbit_neg_r _ (j - - s)) by lia. cbn [orb].
      replace (k / 8)%nat with (q + 4)%nat by lia. f_equal. lia.
    + rewrite (byte_high (m (q+4)%nat)) by (auto; lia). rewrite orb_false_r.
      rewrite word4_testbit by (auto; lia).
      destruct (Z.ltb_spec (j - - s) 8); [|destruct (Z.ltb_spec (j - - s) 16); [|destruct (Z.ltb_spec (j - - s) 24)]].
      * replace (k / 8)%nat with (q + 3)%nat by lia. f_equal. lia.
      * replace (k / 8)%nat with (q + 2)%nat by lia. f_equal. lia.
      * replace (k / 8)%nat with (q + 1)%nat by lia. f_equal. lia.
      * replace (k / 8)%nat with q by lia. f_equal. lia.
Qed.

Lemma load_bits_range m c n : (n <= 32)%nat -> 0 <= load_bits m c n < 2 ^ Z.of_nat n.
Proof.
  intros Hn. unfold load_bits. rewrite tmask_ones by lia. rewrite Z.land_ones by lia.
  apply Z.mod_pos_bound. lia.
Qed.

(** the loaded value is the field at the cursor, whenever the field lies in [l] *)
Lemma load_bits_field m l c n :
  (forall i, is_byte (m i)) -> (1 <= n <= 32)%nat -> (c + n <= 8 * length l)%nat ->
  (forall i, (i < length l)%nat -> m i = nth i l 0) ->
  load_bits m c n = bits_val (firstn n (skipn c (bytes_bits l))).
Proof.
  intros HB Hn Hc Hm.
  assert (HL : length (firstn n (skipn c (bytes_bits l))) = n).
  { rewrite firstn_length, skipn_length, bytes_bits_length. lia. }
  apply eq_bits_val; rewrite HL.
  - apply load_bits_range. lia.
  - intros j Hj. rewrite load_bits_testbit by (auto; lia).
    replace (j <? Z.of_nat n) with true by lia. cbn [andb].
    rewrite nth_firstn by lia. rewrite nth_skipn, nth_bytes_bits. unfold gbitf, gbit.
    replace (Z.to_nat (Z.of_nat c + Z.of_nat n - 1 - j)) with (c + (n - 1 - Z.to_nat j))%nat by lia.
    rewrite Hm; [reflexivity|]. lia.
Qed.

(** ** lists *)
Lemma slice_length {A} (l : list A) a n : length (slice l a n) = Nat.min n (length l - a).
Proof. unfold slice. rewrite firstn_length, skipn_length. reflexivity. Qed.
Lemma slice_app {A} (l : list A) a n m : slice l a n ++ slice l (a + n) m = slice l a (n + m).
Proof.
  unfold slice. rewrite <- (skipn_skipn n a l) at 1 || idtac.
  replace (skipn (a + n) l) with (skipn n (skipn a l)) by (rewrite skipn_skipn; f_equal; lia).
  generalize (skipn a l); intros r. revert r; induction n as [|n IH]; intros r; cbn [plus].
  - destruct r; reflexivity.
  - destruct r as [|x r]; cbn [firstn skipn app]; [destruct m; reflexivity|]. f_equal. apply IH.
Qed.
Lemma slice_slice {A} (l : list A) a n b m : (b + m <= n)%nat -> slice (slice l a n) b m = slice l (a + b) m.
Proof.
  intros H. unfold slice. rewrite skipn_firstn_comm, firstn_firstn, skipn_skipn.
  f_equal; [lia|]. f_equal. lia.
Qed.
Lemma slice_all {A} (l : list A) n : (length l <= n)%nat -> slice l 0 n = l.
Proof. intros H. unfold slice. cbn [skipn]. apply firstn_all2. exact H. Qed.
Lemma bytes_slice l a n : bytes l -> bytes (slice l a n).
Proof.
  unfold bytes, slice. intros H. apply Forall_forall. intros x Hx.
  rewrite Forall_forall in H. apply H.
  assert (H1 : In x (skipn a l)) by (rewrite <- (firstn_skipn n (skipn a l)); apply in_or_app; left; exact Hx).
  rewrite <- (firstn_skipn a l). apply in_or_app. right. exact H1.
Qed.
Lemma skipn_bytes_bits l k : skipn (8 * k) (bytes_bits l) = bytes_bits (skipn k l).
Proof.
  revert k; induction l as [|b l IH]; intros k.
  - cbn. rewrite !skipn_nil. reflexivity.
  - destruct k; [reflexivity|]. cbn [skipn]. rewrite <- IH.
    change (bytes_bits (b :: l)) with (byte_bits b ++ bytes_bits l).
    replace (8 * S k)%nat with (8 + 8 * k)%nat by lia.
    rewrite skipn_app. replace (8 + 8 * k - length (byte_bits b))%nat with (8*k)%nat
      by (unfold byte_bits; rewrite field_bits_length; lia).
    rewrite skipn_all2 by (unfold byte_bits; rewrite field_bits_length; lia). reflexivity.
Qed.
Lemma firstn_bytes_bits l k : firstn (8 * k) (bytes_bits l) = bytes_bits (firstn k l).
Proof.
  rewrite <- (firstn_skipn k l) at 1. rewrite bytes_bits_app, firstn_app, bytes_bits_length, firstn_length.
  destruct (Nat.le_ge_cases k (length l)) as [H|H].
  - rewrite Nat.min_l by exact H. rewrite firstn_all2 by (rewrite bytes_bits_length, firstn_length; lia).
    rewrite Nat.sub_diag. cbn [firstn]. apply app_nil_r.
  - rewrite (skipn_all2 l) by exact H. cbn [bytes_bits flat_map]. rewrite firstn_nil, app_nil_r.
    rewrite firstn_all2; [reflexivity|]. rewrite bytes_bits_length, firstn_length. lia.
Qed.
Lemma nth_bytes_is_byte l i : bytes l -> is_byte (nth i l 0).
Proof.
  intros H. destruct (Nat.ltb_spec i (length l)) as [Hi|Hi].
  - unfold bytes in H. rewrite Forall_forall in H. apply H. apply nth_In. exact Hi.
  - rewrite nth_overflow by exact Hi. unfold is_byte. lia.
Qed.

(** ** reader: one read when the page has the bits *)
Section R.
Variable file : list Z. Variable P : nat. Variable oob : nat -> Z.
Hypothesis Hfile : bytes file.
Hypothesis Hoob : forall i, is_byte (oob i).

Lemma mem_is_byte st : bytes (buf st) -> forall i, is_byte (mem P oob st i).
Proof. intros H i. unfold mem. destruct (Nat.ltb i P); [apply nth_bytes_is_byte; exact H|apply Hoob]. Qed.

(** the page holds the file from byte b: the field read is the file's field *)
Lemma load_from_page st b n :
  bytes (buf st) -> length (buf st) = P ->
  firstn (buf_len st) (buf st) = slice file b (buf_len st) ->
  (b + buf_len st <= length file)%nat -> (buf_len st <= P)%nat ->
  (1 <= n <= 32)%nat -> (cur st + n <= 8 * buf_len st)%nat ->
  load_bits (mem P oob st) (cur st) n = bits_val (firstn n (skipn (8 * b + cur st) (bytes_bits file))).
Proof.
  intros HB HL HF Hb HP Hn Hc.
  rewrite (load_bits_field _ (slice file b (buf_len st))).
  - unfold slice. rewrite <- firstn_bytes_bits, <- skipn_bytes_bits.
    rewrite skipn_firstn_comm, firstn_firstn, skipn_skipn. f_equal.
    f_equal; [lia|]. f_equal. lia.
  - apply mem_is_byte. exact HB.
  - exact Hn.
  - rewrite slice_length. lia.
  - intros i Hi. rewrite slice_length in Hi. unfold mem.
    replace (Nat.ltb i P) with true by (symmetry; apply Nat.ltb_lt; lia).
    rewrite <- HF. rewrite nth_firstn by lia. reflexivity.
Qed.

(** ** the safe region: at least two pages left in the file *)
Inductive Good (b : nat) (st : rst) : Prop :=
| GoodFull : (b + 2 * P <= length file)%nat -> buf_len st = P -> length (buf st) = P ->
    buf st = slice file b P -> (cur st <= 8 * P)%nat ->
    pending st = None -> sh_len st = P -> length (sh st) = P -> sh st = slice file (b + P) P ->
    pos st = (b + 2 * P)%nat -> Good b st
| GoodPending : forall k, (b + 2 * P <= length file)%nat -> buf_len st = P -> length (buf st) = P ->
    buf st = slice file b P -> (cur st <= 8 * P)%nat ->
    (sh_len st <= 4)%nat -> k = (P - sh_len st)%nat ->
    pending st = Some ((b + P + sh_len st)%nat, k) -> length (sh st) = P ->
    slice (sh st) (P - sh_len st) (sh_len st) = slice file (b + P) (sh_len st) ->
    pos st = (b + 2 * P)%nat -> Good b st.

Hypothesis HP : (8 <= P)%nat.

Lemma complete_good b st : Good b st -> exists st', complete file P st = Ok st' /\ Good b st' /\ pending st' = None
  /\ cur st' = cur st /\ tot st' = tot st.
Proof.
  intros [H1 H2 H3 H4 H5 H6 H7 H8 H9 H10 | k H1 H2 H3 H4 H5 H6 H7 H8 H9 H10 H11].
  - exists st. unfold complete. rewrite H6. repeat split; auto. apply GoodFull; auto.
  - unfold complete. rewrite H8. unfold read_cb_shadow.
    set (data := slice file (b + P + sh_len st) k).
    assert (HD : length data = k) by (unfold data; rewrite slice_length; lia).
    destruct data as [|d0 data0] eqn:ED; [cbn [length] in HD; lia|]. rewrite <- ED in *.
    replace (Nat.ltb (P - sh_len st) (sh_len st)) with false by (symmetry; apply Nat.ltb_ge; lia).
    eexists. split; [reflexivity|]. cbn [pending cur tot]. repeat split; auto.
    assert (E : slice (sh st) (P - sh_len st) (sh_len st) ++ data ++ skipn (sh_len st + length data) (sh st) = slice file (b + P) P).
    { rewrite H10, HD. rewrite skipn_all2 by lia. rewrite app_nil_r, ED. rewrite <- ED. unfold data.
      rewrite slice_app. f_equal. lia. }
    apply GoodFull; cbn [buf buf_len cur sh sh_len pending pos]; auto; try lia.
    + rewrite E, slice_length. lia.
Qed.

Lemma deliver_good d b st : Good b st -> exists st', deliver file P d st = Ok st' /\ Good b st' /\ cur st' = cur st /\ tot st' = tot st.
Proof.
  intros H. destruct d; cbn [deliver].
  - destruct (complete_good b st H) as (st' & A & B & C & D & E). exists st'. auto.
  - exists st. auto.
Qed.

Lemma fill_good b st n : Good b st -> (1 <= n <= 32)%nat -> (8 * P < cur st + n)%nat ->
  (8 * b + cur st + n + 16 * P <= 8 * length file)%nat ->
  exists st', fill_buf file P st = Ok st' /\ Good (b + cur st / 8) st' /\ cur st' = (cur st mod 8)%nat /\ tot st' = tot st.
Proof.
  intros HG Hn Hc Hroom. unfold fill_buf.
  assert (Heof : eof file st = false).
  { unfold eof. apply Nat.leb_gt. destruct HG; lia. }
  rewrite Heof, andb_false_r.
  assert (HC : exists st1, (if Nat.eqb (sh_len st) P then Ok st else complete file P st) = Ok st1 /\
     Good b st1 /\ pending st1 = None /\ cur st1 = cur st /\ tot st1 = tot st).
  { destruct (Nat.eqb_spec (sh_len st) P) as [E|E].
    - exists st. destruct HG as [? ? ? ? ? H6 ? ? ? ?|k ? ? ? ? ? H6 ? ? ? ? ?]; [|lia].
      repeat split; auto. apply GoodFull; auto.
    - destruct (complete_good b st HG) as (st' & A & B & C & D & F). exists st'. auto. }
  destruct HC as (st1 & E1 & HG1 & Hp1 & Hc1 & Ht1). rewrite E1. cbn [bindo].
  destruct HG1 as [H1 H2 H3 H4 H5 H6 H7 H8 H9 H10 | k H1 H2 H3 H4 H5 H6 H7 H8 H9 H10 H11]; [|congruence].
  rewrite Hc1 in *. rewrite H2, H7. set (n0 := (cur st / 8)%nat) in *.
  assert (Hn0 : (n0 <= P /\ P - n0 <= 4 /\ 1 <= n0)%nat) by (subst n0; lia).
  replace (Nat.eqb P 0) with false by (symmetry; apply Nat.eqb_neq; lia).
  assert (Hk : (if Nat.ltb n0 P then n0 else P) = n0).
  { destruct (Nat.ltb_spec n0 P); lia. }
  rewrite Hk.
  unfold internal_read, eof. cbn [pos sh_len buf buf_len cur tot sh pending].
  replace (Nat.leb (length file) (pos st1)) with false by (symmetry; apply Nat.leb_gt; subst n0; lia).
  eexists. split; [reflexivity|]. cbn [cur tot]. split; [|auto].
  assert (Hbuf : firstn (P - n0) (slice (buf st1) n0 (P - n0) ++ repeat 0 n0 ++ skipn (P - n0 + n0) (buf st1)) ++
     slice (sh st1) 0 n0 ++ skipn (P - n0 + n0) (slice (buf st1) n0 (P - n0) ++ repeat 0 n0 ++ skipn (P - n0 + n0) (buf st1))
     = slice file (b + n0) P).
  { assert (La : length (slice (buf st1) n0 (P - n0)) = (P - n0)%nat) by (rewrite slice_length; lia).
    rewrite firstn_app, La, Nat.sub_diag. cbn [firstn]. rewrite app_nil_r.
    rewrite firstn_all2 by lia.
    rewrite (skipn_all2 (n := P - n0 + n0) (_ ++ _)).
    2: { rewrite !app_length, La, repeat_length, skipn_length. lia. }
    rewrite app_nil_r. rewrite H4, H9. rewrite slice_slice by lia.
    rewrite slice_slice by lia. rewrite Nat.add_0_r.
    replace (b + P)%nat with (b + n0 + (P - n0))%nat by lia. rewrite slice_app. f_equal. lia. }
  rewrite Hbuf.
  apply (GoodPending _ _ n0); cbn [pos sh_len buf buf_len cur tot sh pending]; try lia.
  - rewrite slice_length. lia.
  - reflexivity.
  - f_equal. f_equal; [rewrite H10|]; lia.
  - replace (P - (P - n0))%nat with n0 by lia. rewrite H9. rewrite slice_slice by lia. f_equal. lia.
Qed.

Lemma getbits_good b st n : Good b st -> (1 <= n <= 32)%nat ->
  (8 * b + cur st + n + 16 * P <= 8 * length file)%nat ->
  exists st' b', getbits file P oob n st = Ok (bits_val (firstn n (skipn (8 * b + cur st) (bytes_bits file))), st')
    /\ Good b' st' /\ (8 * b' + cur st' = 8 * b + cur st + n)%nat.
Proof.
  intros HG Hn Hroom. unfold getbits, nextbits.
  replace (Nat.ltb 32 n) with false by (symmetry; apply Nat.ltb_ge; lia).
  assert (HL : forall b1 st1, Good b1 st1 -> (8 * b1 + cur st1 = 8 * b + cur st)%nat -> (cur st1 + n <= 8 * P)%nat ->
     load_bits (mem P oob st1) (cur st1) n = bits_val (firstn n (skipn (8 * b + cur st) (bytes_bits file)))).
  { intros b1 st1 HG1 He Hc1. rewrite <- He.
    assert (HGG := HG1).
    destruct HG1 as [H1 H2 H3 H4 H5 _ _ _ _ _|k H1 H2 H3 H4 H5 _ _ _ _ _ _];
    (apply load_from_page; [rewrite H4; apply bytes_slice; exact Hfile|exact H3| |lia|lia|lia|lia]);
    rewrite H2; rewrite <- H3 at 1; rewrite firstn_all; exact H4. }
  assert (HA : forall b1 st1, Good b1 st1 -> (cur st1 + n <= 8 * P)%nat -> Good b1 (advance n st1)).
  { intros b1 st1 HG1 Hc1. destruct HG1 as [H1 H2 H3 H4 H5 H6 H7 H8 H9 H10|k H1 H2 H3 H4 H5 H6 H7 H8 H9 H10 H11].
    - apply GoodFull; cbn [advance pos sh_len buf buf_len cur tot sh pending]; auto; lia.
    - apply (GoodPending _ _ k); cbn [advance pos sh_len buf buf_len cur tot sh pending]; auto; lia. }
  assert (Hmask : forall m c, Z.land (load_bits m c n) (nth n tmask 0) = load_bits m c n).
  { intros m c. rewrite tmask_ones by lia. rewrite Z.land_ones by lia. apply Z.mod_small. apply load_bits_range. lia. }
  assert (Hbl : buf_len st = P) by (destruct HG; assumption).
  rewrite Hbl.
  destruct (Nat.ltb_spec (P * 8) (cur st + n)) as [Hf|Hf].
  - destruct (fill_good b st n HG Hn ltac:(lia) Hroom) as (st1 & E1 & HG1 & Hc1 & Ht1).
    rewrite E1. cbn [bindo]. rewrite Hmask.
    exists (advance n st1), (b + cur st / 8)%nat. split; [|split].
    + rewrite (HL (b + cur st / 8)%nat) by (auto; lia). reflexivity.
    + apply HA; auto. lia.
    + cbn [advance cur]. lia.
  - cbn [bindo]. rewrite Hmask.
    exists (advance n st), b. split; [|split].
    + rewrite (HL b) by (auto; lia). reflexivity.
    + apply HA; auto. lia.
    + cbn [advance cur]. lia.
Qed.

Lemma run_good ops : forall b st, Good b st ->
  Forall (fun op => (1 <= snd op <= 32)%nat) ops ->
  (8 * b + cur st + total (map snd ops) + 16 * P <= 8 * length file)%nat ->
  exists st', run_reads file P oob ops st = Ok (fields (map snd ops) (skipn (8 * b + cur st) (bytes_bits file)), st').
Proof.
  induction ops as [|[d n] ops IH]; intros b st HG HF Hroom; cbn [run_reads map fields snd].
  - exists st. reflexivity.
  - inversion HF as [|? ? Hn HF']; subst. cbn [snd] in Hn.
    cbn [map snd total fold_right] in Hroom. fold (total (map snd ops)) in Hroom.
    destruct (deliver_good d b st HG) as (st1 & E1 & HG1 & Hc1 & _). rewrite E1. cbn [bindo].
    destruct (getbits_good b st1 n HG1 Hn ltac:(rewrite Hc1; lia)) as (st2 & b2 & E2 & HG2 & Hc2).
    rewrite E2. cbn [bindo].
    destruct (IH b2 st2 HG2 HF' ltac:(lia)) as (st3 & E3). rewrite E3. cbn [bindo].
    exists st3. rewrite Hc2, Hc1. rewrite skipn_skipn.
    replace (n + (8 * b + cur st))%nat with (8 * b + cur st + n)%nat by lia. reflexivity.
Qed.

Lemma create_good : (2 * P <= length file)%nat -> Good 0 (create file P) /\ cur (create file P) = 0%nat.
Proof.
  intros H. unfold create.
  assert (HL : length (slice file 0 P) = P) by (rewrite slice_length; lia).
  unfold internal_read, eof. cbn [pos].
  destruct (Nat.leb_spec (length file) (Nat.min P (length file))) as [Hl|Hl]; [lia|].
  split; [|reflexivity].
  rewrite HL, Nat.sub_diag. cbn [repeat]. rewrite app_nil_r.
  apply (GoodPending _ _ P); cbn [pos sh_len buf buf_len cur tot sh pending]; auto; try lia.
  all: try apply repeat_length.
  all: try (f_equal; f_equal; lia).
Qed.
End R.
