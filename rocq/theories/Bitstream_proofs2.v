(** Memory streams (TBitstream.h fixed_memory_bitstream), exact-page file
    reading, and the bit writer. *)
From Coq Require Import ZifyNat.
From Verif Require Import Util Bits_spec Bits_lemmas Bitstream_model Bitstream_proofs.
Local Ltac Zify.zify_post_hook ::= Z.div_mod_to_equations.

(** sign extension *)
Lemma stmask_pow n : (2 <= n <= 32)%nat -> nth n stmask 0 = 2 ^ (Z.of_nat n - 1).
Proof.
  intros H. assert (E : forallb (fun i => nth (Z.to_nat i) stmask 0 =? 2 ^ (i - 1)) (zseq 2 31) = true) by (vm_compute; reflexivity).
  pose proof (sweep _ 2 31 E (Z.of_nat n) ltac:(lia)) as E1. cbv beta in E1. rewrite Nat2Z.id in E1. lia.
Qed.
Lemma ctmask_val n : (2 <= n <= 32)%nat -> nth n ctmask 0 = Z.shiftl (Z.ones (32 - Z.of_nat n)) (Z.of_nat n).
Proof.
  intros H. assert (E : forallb (fun i => nth (Z.to_nat i) ctmask 0 =? Z.shiftl (Z.ones (32 - i)) i) (zseq 2 31) = true) by (vm_compute; reflexivity).
  pose proof (sweep _ 2 31 E (Z.of_nat n) ltac:(lia)) as E1. cbv beta in E1. rewrite Nat2Z.id in E1. lia.
Qed.
Lemma land_pow2_test x k : 0 <= k -> (Z.land x (2 ^ k) =? 0) = negb (Z.testbit x k).
Proof.
  intros Hk. destruct (Z.testbit x k) eqn:E.
  - apply Z.eqb_neq. intros H. assert (Z.testbit (Z.land x (2 ^ k)) k = false) by (rewrite H; apply Z.testbit_0_l).
    rewrite Z.land_spec, E, Z.pow2_bits_true in H0 by lia. discriminate.
  - apply Z.eqb_eq. apply Z.bits_inj'. intros j Hj. rewrite Z.land_spec, Z.testbit_0_l.
    rewrite Z.pow2_bits_eqb by lia. destruct (Z.eqb_spec k j) as [->|]; [rewrite E; reflexivity|apply andb_false_r].
Qed.
Lemma lor_disjoint_add x a n : 0 <= x < 2 ^ n -> 0 <= n -> Z.lor x (Z.shiftl a n) = x + a * 2 ^ n.
Proof.
  intros Hx Hn. rewrite <- Z.shiftl_mul_pow2 by lia.
  rewrite <- Z.lxor_lor, Z.add_nocarry_lxor; auto;
  apply Z.bits_inj'; intros j Hj; rewrite Z.land_spec, Z.testbit_0_l, Z.shiftl_spec by lia;
  (destruct (Z.ltb_spec j n); [rewrite (Z.testbit_neg_r a) by lia; apply andb_false_r
    | rewrite (testbit_high x n) by lia; reflexivity]).
Qed.

Lemma sign_ext_val n x : (2 <= n <= 32)%nat -> 0 <= x < 2 ^ Z.of_nat n ->
  (if Nat.ltb 1 n && negb (Z.land x (nth n stmask 0) =? 0) then Z.lor x (nth n ctmask 0) else x) = sign_extend32 n x.
Proof.
  intros Hn Hx. replace (Nat.ltb 1 n) with true by (symmetry; apply Nat.ltb_lt; lia). cbn [andb].
  rewrite stmask_pow, land_pow2_test, negb_involutive by lia.
  unfold sign_extend32. rewrite Z.testbit_eqb by lia.
  assert (H2 : 2 ^ Z.of_nat n = 2 * 2 ^ (Z.of_nat n - 1)).
  { replace (Z.of_nat n) with (Z.of_nat n - 1 + 1) at 1 by lia. rewrite Z.pow_add_r by lia. lia. }
  set (h := 2 ^ (Z.of_nat n - 1)) in *.
  destruct (Z.ltb_spec x h) as [Hl|Hl].
  - rewrite Z.div_small by lia. reflexivity.
  - replace (x / h) with 1. 2: { apply (Z.div_unique x h 1 (x - h)); lia. }
    change (1 mod 2 =? 1) with true. cbv iota.
    rewrite ctmask_val by lia. rewrite lor_disjoint_add by lia.
    rewrite Z.ones_equiv. rewrite <- Z.sub_1_r, Z.mul_sub_distr_r, <- Z.pow_add_r by lia.
    replace (32 - Z.of_nat n + Z.of_nat n) with 32 by lia. lia.
Qed.

(** ** memory stream: page = whole buffer *)
Section M.
Variable file : list Z. Variable oob : nat -> Z.
Hypothesis Hfile : bytes file.
Hypothesis Hoob : forall i, is_byte (oob i).
Let F := length file.

Definition Mem (st : rst) : Prop :=
  buf st = file /\ buf_len st = F /\ sh_len st = 0%nat /\ pending st = None /\ pos st = F /\ (cur st <= 8 * F)%nat
  /\ tot st = cur st.

Lemma Mem_create : Mem (create file F).
Proof using Type. try clear Hoob Hfile; try clear oob.
  unfold create, F. rewrite slice_all by lia. rewrite Nat.sub_diag, Nat.min_id. cbn [repeat]. rewrite app_nil_r.
  unfold internal_read, eof. cbn [pos]. rewrite Nat.leb_refl. unfold Mem, F. cbn [buf buf_len sh_len pending pos cur tot]. repeat split; lia.
Qed.

Lemma Mem_advance n st : Mem st -> (cur st + n <= 8 * F)%nat -> Mem (advance n st).
Proof using Type. try clear Hoob Hfile; try clear oob. unfold Mem. intros (A & B & C & D & E & G & H) Hn. cbn [advance buf buf_len sh_len pending pos cur tot]. repeat split; auto; lia. Qed.

Lemma Mem_eof st : Mem st -> eof file st = true.
Proof using Type. try clear Hoob Hfile; try clear oob. unfold Mem, eof. intros (A & B & C & D & E & G & H). rewrite E. apply Nat.leb_refl. Qed.

Lemma Mem_nextbits n st : Mem st -> (1 <= n <= 32)%nat ->
  nextbits file F oob n st =
  if Nat.leb (cur st + n) (8 * F) then Ok (bits_val (firstn n (skipn (cur st) (bytes_bits file))), st) else EndOfData.
Proof.
  intros HM Hn. pose proof (Mem_eof st HM) as He. destruct HM as (A & B & C & D & E & G & H). unfold nextbits.
  replace (Nat.ltb 32 n) with false by (symmetry; apply Nat.ltb_ge; lia).
  rewrite B. destruct (Nat.leb_spec (cur st + n) (8 * F)) as [Hl|Hl].
  - replace (Nat.ltb (F * 8) (cur st + n)) with false by (symmetry; apply Nat.ltb_ge; lia).
    cbn [bindo]. rewrite (load_from_page file F oob Hoob st 0); [reflexivity| | | | | | |]; rewrite ?A, ?B; unfold F in *; auto; try lia.
  - replace (Nat.ltb (F * 8) (cur st + n)) with true by (symmetry; apply Nat.ltb_lt; lia).
    unfold fill_buf. rewrite C, He. reflexivity.
Qed.

Lemma Mem_getbits n st : Mem st -> (1 <= n <= 32)%nat ->
  getbits file F oob n st =
  if Nat.leb (cur st + n) (8 * F) then Ok (bits_val (firstn n (skipn (cur st) (bytes_bits file))), advance n st) else EndOfData.
Proof.
  intros HM Hn. unfold getbits. rewrite Mem_nextbits by assumption.
  destruct (Nat.leb_spec (cur st + n) (8 * F)) as [Hl|Hl]; [|reflexivity].
  cbn [bindo]. rewrite tmask_ones, Z.land_ones by lia. rewrite Z.mod_small; [reflexivity|].
  pose proof (bits_val_range (firstn n (skipn (cur st) (bytes_bits file)))) as HR.
  rewrite firstn_length, skipn_length, bytes_bits_length in HR. fold F in HR.
  replace (Nat.min n (8 * F - cur st)) with n in HR by lia. exact HR.
Qed.

Lemma Mem_deliver d st : Mem st -> deliver file F d st = Ok st.
Proof using Type. try clear Hoob Hfile; try clear oob. intros (A & B & C & D & E & G). unfold deliver, complete. rewrite D. destruct d; reflexivity. Qed.

Lemma Mem_run ops : forall st, Mem st -> Forall (fun op => (1 <= snd op <= 32)%nat) ops ->
  (exists st', run_reads file F oob ops st =
    if Nat.leb (cur st + total (map snd ops)) (8 * F)
    then Ok (fields (map snd ops) (skipn (cur st) (bytes_bits file)), st') else EndOfData).
Proof.
  induction ops as [|[d n] ops IH]; intros st HM HF.
  - cbn [run_reads map total fold_right fields]. exists st.
    replace (Nat.leb (cur st + 0) (8 * F)) with true; [reflexivity|].
    symmetry. apply Nat.leb_le. destruct HM as (A & B & C & D & E & G & H). lia.
  - inversion HF as [|? ? Hn HF']; subst. cbn [snd] in Hn.
    cbn [run_reads map snd fields]. change (total (n :: map snd ops)) with (n + total (map snd ops))%nat.
    rewrite Mem_deliver by exact HM. cbn [bindo]. rewrite Mem_getbits by assumption.
    destruct (Nat.leb_spec (cur st + n) (8 * F)) as [Hl|Hl].
    + cbn [bindo]. destruct (IH (advance n st) (Mem_advance n st HM Hl) HF') as (st' & E').
      rewrite E'. cbn [advance cur]. rewrite skipn_skipn.
      replace (n + cur st)%nat with (cur st + n)%nat by lia.
      destruct (Nat.leb_spec (cur st + n + total (map snd ops)) (8 * F)) as [H2|H2].
      * replace (Nat.leb _ _) with true by (symmetry; apply Nat.leb_le; lia). exists st'. reflexivity.
      * replace (Nat.leb _ _) with false by (symmetry; apply Nat.leb_gt; lia). exists st. reflexivity.
    + cbn [bindo]. replace (Nat.leb _ _) with false by (symmetry; apply Nat.leb_gt; lia). exists st. reflexivity.
Qed.

Lemma Mem_run_inv ops : forall st, Mem st -> Forall (fun op => (1 <= snd op <= 32)%nat) ops ->
  forall vals st', run_reads file F oob ops st = Ok (vals, st') ->
  Mem st' /\ cur st' = (cur st + total (map snd ops))%nat.
Proof.
  induction ops as [|[d n] ops IH]; intros st HM HF vals st' H.
  - cbn in H. injection H as <- <-. split; [exact HM|]. cbn. lia.
  - inversion HF as [|? ? Hn HF']; subst. cbn [snd] in Hn. cbn [run_reads] in H.
    rewrite Mem_deliver in H by exact HM. cbn [bindo] in H. rewrite Mem_getbits in H by assumption.
    destruct (Nat.leb_spec (cur st + n) (8 * F)) as [Hl|Hl]; [|discriminate H].
    cbn [bindo] in H.
    destruct (run_reads file F oob ops (advance n st)) as [[v s]| | |] eqn:E; cbn [bindo] in H; try discriminate.
    injection H as <- <-. destruct (IH _ (Mem_advance n st HM Hl) HF' _ _ E) as [A B].
    split; [exact A|]. rewrite B. cbn [advance cur map snd total fold_right]. unfold total. lia.
Qed.

Lemma Mem_sgetbits n st : Mem st -> (2 <= n <= 32)%nat -> (cur st + n <= 8 * F)%nat ->
  sgetbits file F oob n st = Ok (sign_extend32 n (bits_val (firstn n (skipn (cur st) (bytes_bits file)))), advance n st).
Proof.
  intros HM Hn Hl. unfold sgetbits. rewrite Mem_getbits by (auto; lia).
  replace (Nat.leb _ _) with true by (symmetry; apply Nat.leb_le; lia). cbn [bindo].
  rewrite sign_ext_val; auto.
  pose proof (bits_val_range (firstn n (skipn (cur st) (bytes_bits file)))) as HR.
  rewrite firstn_length, skipn_length, bytes_bits_length in HR. fold F in HR.
  replace (Nat.min n (8 * F - cur st)) with n in HR by lia. exact HR.
Qed.

(** skip and align *)
Lemma Mem_skip n st : Mem st -> (cur st + n <= 8 * F)%nat -> skipbits file F oob n st = Ok (advance n st).
Proof using Type. try clear Hoob Hfile; try clear oob.
  intros (A & B & C & D & E & G & H) Hl. unfold skipbits. rewrite B.
  replace (Nat.ltb (F * 8 - cur st) n) with false by (symmetry; apply Nat.ltb_ge; lia). reflexivity.
Qed.

Lemma Mem_align_loop n fuel : (n mod 8 = 0)%nat -> (0 < n)%nat -> forall st, Mem st -> (tot st mod 8 = 0)%nat ->
  ((n - tot st mod n) mod n <= 8 * fuel)%nat -> (cur st + (n - tot st mod n) mod n <= 8 * F)%nat ->
  align_loop file F oob fuel n st = Ok (advance ((n - tot st mod n) mod n) st).
Proof.
  intros Hn8 Hn. induction fuel as [|fuel IH]; intros st HM H8 Hf Hr; cbn [align_loop].
  - destruct (Nat.eqb_spec (tot st mod n) 0) as [E|E].
    + rewrite E, Nat.sub_0_r, Nat.mod_same by lia. unfold advance. rewrite !Nat.add_0_r. destruct st; reflexivity.
    + exfalso. pose proof (Nat.mod_upper_bound (tot st) n). rewrite Nat.mod_small in Hf by lia. lia.
  - destruct (Nat.eqb_spec (tot st mod n) 0) as [E|E].
    + rewrite E, Nat.sub_0_r, Nat.mod_same by lia. unfold advance. rewrite !Nat.add_0_r. destruct st; reflexivity.
    + pose proof (Nat.mod_upper_bound (tot st) n ltac:(lia)) as Hub.
      rewrite (Nat.mod_small (n - _)) in * by lia.
      assert (Hd : (8 <= n - tot st mod n)%nat /\ ((n - tot st mod n) mod 8 = 0)%nat).
      { assert (Hq : exists q, n = (8 * q)%nat) by (exists (n / 8)%nat; lia). destruct Hq as [q Hq].
        assert (Ht : exists t, tot st = (8 * t)%nat) by (exists (tot st / 8)%nat; lia). destruct Ht as [t Ht].
        rewrite Ht, Hq in *. rewrite Nat.mul_mod_distr_l in * by lia. 
        set (z := (t mod q)%nat) in *. clearbody z. lia. }
      destruct Hd as [Hd1 Hd2].
      rewrite Mem_skip by (auto; lia). cbn [bindo].
      assert (Ht' : tot (advance 8 st) = (tot st + 8)%nat) by reflexivity.
      assert (Hnext : ((n - tot (advance 8 st) mod n) mod n = (n - tot st mod n) - 8)%nat).
      { rewrite Ht'. set (a := tot st) in *. set (r := (a mod n)%nat) in *.
        rewrite Nat.add_mod by lia. fold r.
        destruct (Nat.eq_dec (r + 8) n) as [En|En].
        - assert (n = 8 \/ 8 < n)%nat as [->|] by lia; [lia|].
          rewrite (Nat.mod_small 8 n) by lia. rewrite En, Nat.mod_same by lia. rewrite Nat.sub_0_r, Nat.mod_same by lia. lia.
        - rewrite (Nat.mod_small 8 n) by lia. rewrite (Nat.mod_small (r + 8)) by lia. rewrite Nat.mod_small by lia. lia. }
      rewrite IH.
      * f_equal. rewrite Hnext. unfold advance; cbn [buf buf_len cur tot sh sh_len pos pending]. f_equal; lia.
      * apply Mem_advance; auto; lia.
      * rewrite Ht'. lia.
      * rewrite Hnext. lia.
      * rewrite Hnext. cbn [advance cur]. lia.
Qed.

(** alignment moves to the next multiple of n bits and changes nothing else *)
Lemma Mem_align n st : Mem st -> (n mod 8 = 0)%nat -> (0 < n)%nat ->
  forall d, (d < n)%nat -> ((tot st + d) mod n = 0)%nat -> (cur st + d <= 8 * F)%nat ->
  align file F oob n st = Ok (advance d st).
Proof.
  intros HM H8 Hn d Hd Hm Hr. unfold align. rewrite H8. cbn [Nat.eqb negb].
  assert (Hdd : forall t e, (e < n)%nat -> ((t + e) mod n = 0)%nat -> ((n - t mod n) mod n = e)%nat).
  { intros t e He Hz. pose proof (Nat.mod_upper_bound t n ltac:(lia)) as Hu.
    rewrite Nat.add_mod in Hz by lia. rewrite (Nat.mod_small e n) in Hz by lia.
    set (r := (t mod n)%nat) in *. clearbody r.
    destruct (Nat.eq_dec r 0) as [->|Hr0].
    - rewrite Nat.sub_0_r, Nat.mod_same by lia. rewrite Nat.add_0_l, Nat.mod_small in Hz by lia. lia.
    - rewrite Nat.mod_small by lia.
      assert (r + e = n)%nat; [|lia].
      destruct (Nat.lt_ge_cases (r + e) n); [rewrite Nat.mod_small in Hz by lia; lia|].
      replace (r + e)%nat with ((r + e - n) + 1 * n)%nat in Hz by lia.
      rewrite Nat.mod_add in Hz by lia. rewrite Nat.mod_small in Hz by lia. lia. }
  assert (Hq : exists q, n = (8 * q)%nat) by (exists (n / 8)%nat; lia).
  assert (Hd8 : ((tot st + d) mod 8 = 0)%nat).
  { destruct Hq as [q Hq]. assert (E : (tot st + d = n * ((tot st + d) / n))%nat).
    { pose proof (Nat.div_mod (tot st + d) n ltac:(lia)). lia. }
    rewrite E, Hq. rewrite <- Nat.mul_assoc, Nat.mul_comm. apply Nat.mod_mul. lia. }
  destruct (Nat.eqb_spec (tot st mod 8) 0) as [E|E].
  - cbn [bindo]. rewrite (Mem_align_loop n n H8 Hn st HM E); rewrite (Hdd (tot st) d Hd Hm); auto; lia.
  - assert (Hs : (8 - tot st mod 8 <= d)%nat) by lia.
    rewrite Mem_skip by (auto; lia). cbn [bindo].
    set (e := (8 - tot st mod 8)%nat) in *.
    assert (HM' : Mem (advance e st)) by (apply Mem_advance; auto; lia).
    assert (Et : tot (advance e st) = (tot st + e)%nat) by reflexivity.
    assert (Hm' : ((tot (advance e st) + (d - e)) mod n = 0)%nat) by (rewrite Et; replace (tot st + e + (d - e))%nat with (tot st + d)%nat by lia; exact Hm).
    rewrite (Mem_align_loop n n H8 Hn _ HM'); rewrite ?(Hdd _ (d - e)%nat ltac:(lia) Hm').
    + f_equal. unfold advance; cbn [buf buf_len cur tot sh sh_len pos pending]. f_equal; lia.
    + rewrite Et. subst e. lia.
    + lia.
    + cbn [advance cur]. lia.
Qed.

(** block reads *)
Lemma Mem_atend st : Mem st -> atend file st = Nat.eqb (cur st) (8 * F).
Proof using Type. try clear Hoob Hfile; try clear oob.
  intros HM. unfold atend. rewrite (Mem_eof st HM). destruct HM as (A & B & C & D & E & G & H).
  rewrite B, C. cbn [andb Nat.eqb]. destruct (Nat.eqb_spec (cur st) (8 * F)); [apply Nat.leb_le|apply Nat.leb_gt]; lia.
Qed.

Lemma read_loop_S f size st : read_loop file F oob (S f) size st =
  if Nat.eqb size 0 || atend file st then Ok ([], st)
    else bindo (read1 file F oob size st) (fun '(d, st) =>
         bindo (read_loop file F oob f (size - length d) st) (fun '(d2, st) => Ok (d ++ d2, st))).
Proof. reflexivity. Qed.

Lemma Mem_read st c size fuel : Mem st -> cur st = (8 * c)%nat -> (2 <= fuel)%nat -> (0 < size)%nat -> (c < F)%nat ->
  exists st', read_loop file F oob fuel size st =
   (if Nat.leb F (c + size) then Ok (skipn c file, st')
    else if Nat.leb (c + size + 4) F then Ok (slice file c size, st') else EndOfData).
Proof.
  intros HM Hc Hf Hs HcF. destruct fuel as [|[|f]]; try lia. rewrite read_loop_S.
  rewrite (Mem_atend st HM).
  replace (Nat.eqb size 0) with false by (symmetry; apply Nat.eqb_neq; lia).
  replace (Nat.eqb (cur st) (8 * F)) with false by (symmetry; apply Nat.eqb_neq; lia). cbn [orb].
  unfold read1. pose proof HM as (A & B & C & D & E & G & H).
  replace (cur st / 8)%nat with c by lia. rewrite B, A.
  destruct (Nat.leb_spec F (c + size)) as [Hl|Hl].
  - replace (Nat.ltb size (F - c)) with false by (symmetry; apply Nat.ltb_ge; lia).
    assert (HM' : Mem (advance ((F - c) * 8) st)) by (apply Mem_advance; auto; lia).
    rewrite (Mem_atend _ HM').
    replace (Nat.eqb (cur (advance ((F - c) * 8) st)) (8 * F)) with true by (symmetry; apply Nat.eqb_eq; cbn [advance cur]; lia).
    cbn [bindo]. rewrite read_loop_S, (Mem_atend _ HM').
    replace (Nat.eqb (cur (advance ((F - c) * 8) st)) (8 * F)) with true by (symmetry; apply Nat.eqb_eq; cbn [advance cur]; lia).
    rewrite orb_true_r. cbn [bindo]. eexists. rewrite app_nil_r.
    unfold slice. rewrite firstn_all2; [reflexivity|]. rewrite skipn_length. fold F. lia.
  - replace (Nat.ltb size (F - c)) with true by (symmetry; apply Nat.ltb_lt; lia).
    assert (HM' : Mem (advance (size * 8) st)) by (apply Mem_advance; auto; lia).
    rewrite Mem_nextbits by (auto; lia). cbn [advance cur].
    destruct (Nat.leb_spec (c + size + 4) F) as [H4|H4].
    + replace (Nat.leb _ _) with true by (symmetry; apply Nat.leb_le; lia). cbn [bindo].
      rewrite slice_length. fold F. replace (size - Nat.min size (F - c))%nat with 0%nat by lia.
      rewrite read_loop_S. cbn [Nat.eqb orb bindo]. eexists. rewrite app_nil_r. reflexivity.
    + replace (Nat.leb (cur st + size * 8 + 32) (8 * F)) with false by (symmetry; apply Nat.leb_gt; lia).
      cbn [bindo]. exists st. reflexivity.
Qed.
End M.
