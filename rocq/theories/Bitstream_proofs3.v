(** Exact-page file reading, and the bit writer. *)
From Coq Require Import ZifyNat.
From Verif Require Import Util Bits_spec Bits_lemmas Bitstream_model Bitstream_proofs.
Local Ltac Zify.zify_post_hook ::= Z.div_mod_to_equations.

Section Exact.
Variable file : list Z. Variable P : nat. Variable oob : nat -> Z.
Hypothesis Hfile : bytes file.
Hypothesis Hoob : forall i, is_byte (oob i).
Variable w : nat.
Hypothesis Hw : (8 <= w <= 32)%nat.
Hypothesis Hw8 : (w mod 8 = 0)%nat.
Hypothesis HPw : ((8 * P) mod w = 0)%nat.
Hypothesis HP : (0 < P)%nat.
Let F := length file.

Definition ExD (b : nat) (st : rst) : Prop :=
  (b <= F)%nat /\ buf_len st = Nat.min P (F - b) /\ length (buf st) = P /\ bytes (buf st) /\
  firstn (buf_len st) (buf st) = slice file b (buf_len st) /\
  (cur st <= 8 * buf_len st)%nat /\ (cur st mod w = 0)%nat /\
  sh_len st = Nat.min P (F - b - P) /\ length (sh st) = P /\
  firstn (sh_len st) (sh st) = slice file (b + P) (sh_len st) /\
  pos st = Nat.min (b + 2 * P) F /\ pending st = None.

Definition ExP (b : nat) (st : rst) : Prop :=
  ExD b st \/
  ((b + P < F)%nat /\ buf_len st = Nat.min P (F - b) /\ length (buf st) = P /\ bytes (buf st) /\
  firstn (buf_len st) (buf st) = slice file b (buf_len st) /\
  (cur st <= 8 * buf_len st)%nat /\ (cur st mod w = 0)%nat /\
  sh_len st = 0%nat /\ length (sh st) = P /\
  pos st = Nat.min (b + 2 * P) F /\ pending st = Some ((b + P)%nat, P)).

Lemma Ex_deliver b st : ExP b st -> exists st', deliver file P true st = Ok st' /\ ExD b st' /\ cur st' = cur st.
Proof.
  intros [H|H].
  - exists st. pose proof H as (A & B & C & D & E & G & I & J & K & L & M & N).
    cbn [deliver]. unfold complete. rewrite N. auto.
  - destruct H as (A & B & C & D & E & G & I & J & K & M & N).
    cbn [deliver]. unfold complete. rewrite N. unfold read_cb_shadow.
    set (data := slice file (b + P) P).
    assert (HD : length data = Nat.min P (F - b - P)) by (unfold data; rewrite slice_length; fold F; lia).
    destruct data as [|d0 data0] eqn:ED; [cbn [length] in HD; lia|]. rewrite <- ED in *.
    rewrite J. cbn [Nat.ltb Nat.leb].
    replace (Nat.leb 1 0) with false by reflexivity.
    eexists. split; [reflexivity|]. cbn [cur]. split; [|reflexivity].
    unfold ExD. cbn [buf buf_len cur sh sh_len pos pending tot]. rewrite Nat.sub_0_r.
    assert (E0 : slice (sh st) P 0 = []) by reflexivity. rewrite E0. cbn [app Nat.add].
    assert (HDF : firstn (length data) (data ++ skipn (length data) (sh st)) = data).
    { rewrite firstn_app, firstn_all, Nat.sub_diag. cbn [firstn]. apply app_nil_r. }
    repeat split; auto; try lia.
    + rewrite app_length, skipn_length. lia.
    + rewrite HDF. unfold data. rewrite slice_length. unfold slice. fold F.
      destruct (Nat.le_ge_cases P (F - (b + P))) as [Hle|Hge].
      * rewrite Nat.min_l by lia. reflexivity.
      * rewrite Nat.min_r by lia. rewrite !firstn_all2; auto; rewrite skipn_length; fold F; lia.
Qed.

Lemma Ex_get b st : ExD b st -> (8 * b + cur st + w <= 8 * F)%nat ->
  exists st' b', getbits file P oob w st = Ok (bits_val (firstn w (skipn (8 * b + cur st) (bytes_bits file))), st')
     /\ ExP b' st' /\ (8 * b' + cur st' = 8 * b + cur st + w)%nat.
Proof.
  intros H Hroom. unfold getbits, nextbits.
  replace (Nat.ltb 32 w) with false by (symmetry; apply Nat.ltb_ge; lia).
  assert (Hmask : forall m c, Z.land (load_bits m c w) (nth w tmask 0) = load_bits m c w).
  { intros m c. rewrite tmask_ones by lia. rewrite Z.land_ones by lia. apply Z.mod_small. apply load_bits_range. lia. }
  assert (Hadd : forall c, (c mod w = 0)%nat -> ((c + w) mod w = 0)%nat).
  { intros c Hc. rewrite Nat.add_mod, Hc, Nat.mod_same by lia. apply Nat.mod_0_l. lia. }
  assert (HwP : (w <= 8 * P)%nat) by (apply Nat.mod_divide in HPw; [|lia]; apply Nat.divide_pos_le in HPw; lia).
  pose proof H as (A & B & C & D & E & G & I & J & K & L & M & N).
  destruct (Nat.ltb_spec (buf_len st * 8) (cur st + w)) as [Hf|Hf].
  - (* refill: the page is complete and fully consumed *)
    assert (HbP : buf_len st = P) by lia.
    assert (HcP : cur st = (8 * P)%nat).
    { assert (exists q, 8 * P = w * q)%nat as [q Hq] by (exists (8 * P / w)%nat; pose proof (Nat.div_mod (8*P) w ltac:(lia)); lia).
      assert (exists t, cur st = w * t)%nat as [t Ht] by (exists (cur st / w)%nat; pose proof (Nat.div_mod (cur st) w ltac:(lia)); lia).
      rewrite HbP in *. assert (t = q \/ t < q \/ q < t)%nat as [->|[Hlt|Hlt]] by lia; [lia| |];
      [assert (w * (t + 1) <= w * q)%nat by (apply Nat.mul_le_mono_l; lia); lia
      |assert (w * (q + 1) <= w * t)%nat by (apply Nat.mul_le_mono_l; lia); lia]. }
    assert (Hsh : (0 < sh_len st)%nat) by lia.
    unfold fill_buf.
    replace (Nat.eqb (sh_len st) 0) with false by (symmetry; apply Nat.eqb_neq; lia). cbn [andb].
    assert (Hcomp : (if Nat.eqb (sh_len st) P then Ok st else complete file P st) = Ok st).
    { unfold complete. rewrite N. destruct (Nat.eqb (sh_len st) P); reflexivity. }
    rewrite Hcomp. cbn [bindo]. rewrite HbP, HcP.
    replace (8 * P / 8)%nat with P by lia. rewrite Nat.sub_diag.
    replace (Nat.eqb (sh_len st) 0) with false by (symmetry; apply Nat.eqb_neq; lia).
    replace (8 * P mod 8)%nat with 0%nat by lia.
    replace (if Nat.ltb P (sh_len st) then P else sh_len st) with (sh_len st)
      by (destruct (Nat.ltb_spec P (sh_len st)); lia).
    rewrite Nat.sub_diag, Nat.sub_0_r. cbn [Nat.add firstn app bindo].
    set (buf' := slice (sh st) 0 (sh_len st) ++ skipn (sh_len st) (slice (buf st) P 0 ++ repeat 0 P ++ skipn P (buf st))).
    set (st1 := internal_read file P (mkR buf' (sh_len st) 0 (tot st) (sh st) 0 (pos st) (pending st))).
    assert (Hbuf' : length buf' = P /\ bytes buf' /\ firstn (sh_len st) buf' = slice file (b + P) (sh_len st)).
    { assert (Hs : slice (sh st) 0 (sh_len st) = slice file (b + P) (sh_len st)) by (unfold slice at 1; cbn [skipn]; exact L).
      unfold buf'. rewrite Hs.
      assert (Z0 : slice (buf st) P 0 = []) by reflexivity. rewrite Z0. cbn [app].
      rewrite (skipn_all2 (n:=P) (buf st)) by lia. rewrite app_nil_r.
      assert (Hls : length (slice file (b + P) (sh_len st)) = sh_len st) by (rewrite slice_length; fold F; lia).
      repeat split.
      - rewrite app_length, Hls, skipn_length, repeat_length. lia.
      - apply bytes_app. split; [apply bytes_slice; exact Hfile|].
        apply Forall_forall. intros x Hx.
        assert (In x (repeat 0 P)) by (rewrite <- (firstn_skipn (sh_len st) (repeat 0 P)); apply in_or_app; right; exact Hx).
        apply repeat_spec in H0. subst x. unfold is_byte. lia.
      - rewrite firstn_app, Hls, Nat.sub_diag. cbn [firstn]. rewrite app_nil_r. apply firstn_all2. lia. }
    destruct Hbuf' as (HL & HBy & HF').
    assert (H1 : cur st1 = 0%nat /\ buf_len st1 = sh_len st /\ buf st1 = buf' /\ ExP (b + P) (advance w st1)).
    { unfold st1, internal_read, eof. cbn [pos].
      destruct (Nat.leb_spec (length file) (pos st)) as [He|He].
      - cbn [cur buf_len buf]. repeat split; auto. left. unfold ExD.
        cbn [advance buf buf_len cur sh sh_len pos pending tot]. fold F in He. repeat split; auto; try lia.
        + rewrite Nat.add_0_l. apply Nat.mod_same. lia.
      - fold F in He |- *. cbn [cur buf_len buf]. repeat split; auto.
        right. cbn [advance buf buf_len cur sh sh_len pos pending tot]. repeat split; auto; try lia.
        + rewrite Nat.add_0_l. apply Nat.mod_same. lia.
        + f_equal. f_equal. lia. }
    destruct H1 as (Hc1 & Hbl1 & Hb1 & HE1).
    exists (advance w st1), (b + P)%nat. split; [|split; [exact HE1|cbn [advance cur]; lia]].
    rewrite Hmask. f_equal. f_equal.
    rewrite (load_from_page file P oob Hoob st1 (b + P)); rewrite ?Hc1, ?Hbl1, ?Hb1; auto; fold F; try lia.
    f_equal. f_equal. f_equal. lia.
  - cbn [bindo]. rewrite Hmask. exists (advance w st), b. split; [|split; [|cbn [advance cur]; lia]].
    + rewrite (load_from_page file P oob Hoob st b); auto; fold F; lia.
    + left. unfold ExD. cbn [advance buf buf_len cur sh sh_len pos pending tot]. repeat split; auto; lia.
Qed.

Lemma Ex_run m : forall b st, ExP b st -> (8 * b + cur st + m * w <= 8 * F)%nat ->
  exists st', run_reads file P oob (repeat (true, w) m) st
    = Ok (fields (repeat w m) (skipn (8 * b + cur st) (bytes_bits file)), st').
Proof.
  induction m as [|m IH]; intros b st HE Hroom; cbn [run_reads repeat fields].
  - exists st. reflexivity.
  - destruct (Ex_deliver b st HE) as (st1 & E1 & HD1 & Hc1). rewrite E1. cbn [bindo].
    destruct (Ex_get b st1 HD1 ltac:(lia)) as (st2 & b2 & E2 & HE2 & Hc2). rewrite E2. cbn [bindo].
    destruct (IH b2 st2 HE2 ltac:(lia)) as (st3 & E3). rewrite E3. cbn [bindo].
    exists st3. rewrite Hc2, Hc1, skipn_skipn.
    replace (w + (8 * b + cur st))%nat with (8 * b + cur st + w)%nat by lia. reflexivity.
Qed.

Lemma Ex_create : ExP 0 (create file P) /\ cur (create file P) = 0%nat.
Proof.
  unfold create.
  assert (HL : length (slice file 0 P) = Nat.min P F) by (rewrite slice_length; fold F; lia).
  rewrite HL. fold F.
  assert (HB : bytes (slice file 0 P ++ repeat 0 (P - Nat.min P F))).
  { apply bytes_app. split; [apply bytes_slice; exact Hfile|].
    apply Forall_forall. intros x Hx. apply repeat_spec in Hx. subst x. unfold is_byte. lia. }
  assert (HFn : firstn (Nat.min P F) (slice file 0 P ++ repeat 0 (P - Nat.min P F)) = slice file 0 (Nat.min P F)).
  { rewrite firstn_app, HL, Nat.sub_diag. cbn [firstn]. rewrite app_nil_r.
    unfold slice. cbn [skipn]. rewrite firstn_firstn. f_equal. lia. }
  unfold internal_read, eof. cbn [pos]. fold F.
  destruct (Nat.leb_spec F (Nat.min P F)) as [Hl|Hl]; (split; [|reflexivity]).
  - left. unfold ExD. cbn [buf buf_len cur sh sh_len pos pending tot]. repeat split; auto; try lia.
    + rewrite app_length, HL, repeat_length. lia.
    + apply Nat.mod_0_l. lia.
    + apply repeat_length.
  - right. cbn [buf buf_len cur sh sh_len pos pending tot]. repeat split; auto; try lia.
    + rewrite app_length, HL, repeat_length. lia.
    + apply Nat.mod_0_l. lia.
    + apply repeat_length.
    + f_equal. f_equal. lia.
Qed.
End Exact.

(** ** writer *)
Lemma or_at_length i x m : length (or_at i x m) = length m.
Proof. revert i; induction m as [|b m IH]; intros [|i]; cbn [or_at length]; auto. Qed.

Lemma u8_byte x : is_byte (u8 x).
Proof. unfold u8, is_byte. apply Z.mod_pos_bound. lia. Qed.
Lemma lor_byte a b : is_byte a -> is_byte b -> is_byte (Z.lor a b).
Proof.
  intros Ha Hb.
  assert (E := byte_sweep2 (fun a b => is_byteb (Z.lor a b)) ltac:(vm_compute; reflexivity) a b Ha Hb).
  unfold is_byteb in E. unfold is_byte. lia.
Qed.
Lemma or_at_bytes i x m : bytes m -> bytes (or_at i x m).
Proof.
  revert i; induction m as [|b m IH]; intros [|i] H; cbn [or_at]; auto.
  - apply bytes_cons in H as [H1 H2]. apply bytes_cons. split; auto. apply lor_byte; auto using u8_byte.
  - apply bytes_cons in H as [H1 H2]. apply bytes_cons. split; auto.
Qed.

Lemma nth_or_at i x m j : (i < length m)%nat ->
  nth j (or_at i x m) 0 = if Nat.eqb j i then Z.lor (nth j m 0) (u8 x) else nth j m 0.
Proof.
  revert i j; induction m as [|b m IH]; intros i j Hi; cbn [length] in Hi; [lia|].
  destruct i as [|i]; destruct j as [|j]; cbn [or_at nth Nat.eqb]; auto. apply IH. lia.
Qed.
Lemma or_at_out i x m : (length m <= i)%nat -> or_at i x m = m.
Proof.
  revert i; induction m as [|b m IH]; intros i Hi; [destruct i; reflexivity|].
  destruct i as [|i]; cbn [length] in Hi; [lia|]. cbn [or_at]. f_equal. apply IH. lia.
Qed.
Lemma gbit_or_at i x m k : (k < 8 * length m)%nat ->
  gbit (or_at i x m) k = gbit m k || (Nat.eqb (k / 8) i && Z.testbit x (7 - Z.of_nat (k mod 8))).
Proof.
  intros Hk. destruct (Nat.ltb_spec i (length m)) as [Hi|Hi].
  - unfold gbit. rewrite nth_or_at by exact Hi. destruct (Nat.eqb_spec (k / 8) i) as [E|E].
    + rewrite Z.lor_spec. unfold u8. change 256 with (2 ^ 8). rewrite Z.mod_pow2_bits_low by lia. reflexivity.
    + rewrite andb_false_l, orb_false_r. reflexivity.
  - rewrite or_at_out by exact Hi.
    replace (Nat.eqb (k / 8) i) with false by (symmetry; apply Nat.eqb_neq; lia).
    rewrite andb_false_l, orb_false_r. reflexivity.
Qed.

(** bit k after the put = bit k before, or-ed with the field's bit at that place *)
Lemma gbit_put m c v n k : (1 <= n <= 32)%nat -> (k < 8 * length m)%nat ->
  gbit (put_word m c v n) k = gbit m k ||
    (Z.testbit v (Z.of_nat c + Z.of_nat n - 1 - Z.of_nat k) && (Z.of_nat c <=? Z.of_nat k)).
Proof.
  intros Hn Hk. unfold put_word.
  set (val := Z.land v (nth n tmask 0)).
  assert (Hval : forall j, 0 <= j -> Z.testbit val j = Z.testbit v j && (j <? Z.of_nat n)).
  { intros j Hj. unfold val. rewrite tmask_ones, Z.land_spec by lia. rewrite testbit_ones_b by lia. reflexivity. }
  set (delta := 32 - Z.of_nat n - Z.of_nat (c mod 8)).
  assert (Hdelta : delta = 32 - Z.of_nat n - Z.of_nat (c mod 8)) by reflexivity.
  set (q := (c / 8)%nat). assert (Hq : q = (c / 8)%nat) by reflexivity.
  clearbody val delta q.
  destruct (Z.leb_spec 0 delta) as [Hd|Hd].
  - set (tmp := u32 (Z.shiftl val delta)).
    assert (Htmp : forall j, 0 <= j < 32 -> Z.testbit tmp j = if delta <=? j then Z.testbit v (j - delta) && (j - delta <? Z.of_nat n) else false).
    { intros j Hj. unfold tmp, u32. rewrite Z.mod_pow2_bits_low by lia. rewrite Z.shiftl_spec by lia.
      destruct (Z.leb_spec delta j); [apply Hval; lia|]. apply Z.testbit_neg_r. lia. }
    clearbody tmp.
    rewrite !gbit_or_at by (rewrite ?or_at_length; exact Hk). rewrite <- !orb_assoc. f_equal.
    rewrite !Z.shiftr_spec by lia.
    set (i := Z.of_nat k - 8 * Z.of_nat q).
    destruct (Nat.eqb_spec (k / 8) q) as [E0|E0];
    destruct (Nat.eqb_spec (k / 8) (q+1)) as [E1|E1]; try (exfalso; lia);
    destruct (Nat.eqb_spec (k / 8) (q+2)) as [E2|E2]; try (exfalso; lia);
    destruct (Nat.eqb_spec (k / 8) (q+3)) as [E3|E3]; try (exfalso; lia);
    cbn [andb orb]; rewrite ?orb_false_r.
    + rewrite Htmp by lia.
      destruct (Z.leb_spec delta (7 - Z.of_nat (k mod 8) + 24)).
      * f_equal; [f_equal; lia|]. lia.
      * rewrite (Z.testbit_neg_r v) by lia. reflexivity.
    + rewrite Htmp by lia. replace (Z.of_nat c <=? Z.of_nat k) with true by lia. rewrite andb_true_r.
      destruct (Z.leb_spec delta (7 - Z.of_nat (k mod 8) + 16)).
      * replace (_ <? Z.of_nat n) with true by lia. rewrite andb_true_r. f_equal; lia.
      * rewrite (Z.testbit_neg_r v) by lia. reflexivity.
    + rewrite Htmp by lia. replace (Z.of_nat c <=? Z.of_nat k) with true by lia. rewrite andb_true_r.
      destruct (Z.leb_spec delta (7 - Z.of_nat (k mod 8) + 8)).
      * replace (_ <? Z.of_nat n) with true by lia. rewrite andb_true_r. f_equal; lia.
      * rewrite (Z.testbit_neg_r v) by lia. reflexivity.
    + rewrite Htmp by lia. replace (Z.of_nat c <=? Z.of_nat k) with true by lia. rewrite andb_true_r.
      destruct (Z.leb_spec delta (7 - Z.of_nat (k mod 8))).
      * replace (_ <? Z.of_nat n) with true by lia. rewrite andb_true_r. f_equal; lia.
      * rewrite (Z.testbit_neg_r v) by lia. reflexivity.
    + destruct (Z.leb_spec (Z.of_nat c) (Z.of_nat k)); [|rewrite andb_false_r; reflexivity].
      rewrite (Z.testbit_neg_r v) by lia. reflexivity.
  - set (tmp := Z.shiftr val (- delta)).
    assert (Htmp : forall j, 0 <= j -> Z.testbit tmp j = Z.testbit v (j - delta) && (j - delta <? Z.of_nat n)).
    { intros j Hj. unfold tmp. rewrite Z.shiftr_spec by lia. replace (j + - delta) with (j - delta) by lia. apply Hval; lia. }
    clearbody tmp.
    rewrite !gbit_or_at by (rewrite ?or_at_length; exact Hk). rewrite <- !orb_assoc. f_equal.
    rewrite !Z.shiftr_spec by lia.
    destruct (Nat.eqb_spec (k / 8) q) as [E0|E0];
    destruct (Nat.eqb_spec (k / 8) (q+1)) as [E1|E1]; try (exfalso; lia);
    destruct (Nat.eqb_spec (k / 8) (q+2)) as [E2|E2]; try (exfalso; lia);
    destruct (Nat.eqb_spec (k / 8) (q+3)) as [E3|E3]; try (exfalso; lia);
    destruct (Nat.eqb_spec (k / 8) (q+4)) as [E4|E4]; try (exfalso; lia);
    cbn [andb orb]; rewrite ?orb_false_r.
    + rewrite Htmp by lia. f_equal; [f_equal; lia|lia].
    + rewrite Htmp by lia. f_equal; [f_equal; lia|lia].
    + rewrite Htmp by lia. f_equal; [f_equal; lia|lia].
    + rewrite Htmp by lia. f_equal; [f_equal; lia|lia].
    + unfold u32. rewrite Z.mod_pow2_bits_low by lia. rewrite Z.shiftl_spec by lia.
      replace (Z.of_nat c <=? Z.of_nat k) with true by lia. rewrite andb_true_r. f_equal. lia.
    + destruct (Z.leb_spec (Z.of_nat c) (Z.of_nat k)); [|rewrite andb_false_r; reflexivity].
      rewrite (Z.testbit_neg_r v) by lia. reflexivity.
Qed.

Lemma put_word_length m c v n : length (put_word m c v n) = length m.
Proof. unfold put_word. destruct (0 <=? _); rewrite ?or_at_length; reflexivity. Qed.
Lemma put_word_bytes m c v n : bytes m -> bytes (put_word m c v n).
Proof. intros H. unfold put_word. destruct (0 <=? _); repeat apply or_at_bytes; exact H. Qed.

Definition field_stream (fs : list (Z * nat)) : list bool := flat_map (fun f => field_bits (fst f) (snd f)) fs.

Lemma bits_ext (a b : list bool) : length a = length b ->
  (forall k, (k < length a)%nat -> nth k a false = nth k b false) -> a = b.
Proof. intros HL H. apply (nth_ext a b false false HL H). Qed.

Lemma bytes_ext (a b : list Z) : bytes a -> bytes b -> length a = length b ->
  (forall k, (k < 8 * length a)%nat -> gbit a k = gbit b k) -> a = b.
Proof.
  intros Ha Hb HL H. apply bytes_bits_inj; auto. apply bits_ext.
  - rewrite !bytes_bits_length. lia.
  - rewrite bytes_bits_length. intros k Hk. rewrite !nth_bytes_bits. apply H. exact Hk.
Qed.

Lemma gbit_app1 a b k : (k < 8 * length a)%nat -> gbit (a ++ b) k = gbit a k.
Proof. intros H. unfold gbit. rewrite app_nth1 by lia. reflexivity. Qed.
Lemma gbit_app2 a b k : gbit (a ++ b) (8 * length a + k) = gbit b k.
Proof.
  unfold gbit. replace ((8 * length a + k) / 8)%nat with (length a + k / 8)%nat by lia.
  rewrite app_nth2 by lia. replace (length a + k / 8 - length a)%nat with (k / 8)%nat by lia. f_equal. lia.
Qed.

Lemma skipn_nth (m : list Z) : forall l, (l < length m)%nat -> skipn l m = nth l m 0 :: skipn (S l) m.
Proof.
  induction m as [|x m IH]; intros l Hl; cbn [length] in Hl; [lia|].
  destruct l; [reflexivity|]. cbn [nth]. change (skipn (S l) (x :: m)) with (skipn l m).
  change (skipn (S (S l)) (x :: m)) with (skipn (S l) m). apply IH. lia.
Qed.

Section W.
Variable P : nat. Variable tail : list Z.
Hypothesis HP : (5 <= P)%nat.
Hypothesis Htail : bytes tail.

Definition WInv (L : list bool) (w : wst) : Prop :=
  length (wbuf w) = P /\ bytes (wbuf w) /\ wtail w = tail /\ bytes (wout w) /\ (wcur w <= 8 * P)%nat /\
  (forall k, (wcur w <= k)%nat -> gbit (wbuf w) k = false) /\
  bytes_bits (wout w) ++ firstn (wcur w) (bytes_bits (wbuf w)) = L.

Lemma gbit_repeat0 n k : gbit (repeat 0 n) k = false.
Proof.
  unfold gbit. replace (nth (k / 8) (repeat 0 n) 0) with 0; [apply Z.testbit_0_l|].
  generalize (k / 8)%nat. clear. induction n as [|n IH]; intros [|j]; cbn [repeat nth]; auto.
Qed.
Lemma bytes_repeat0 n : bytes (repeat 0 n).
Proof. apply Forall_forall. intros x Hx. apply repeat_spec in Hx. subst. unfold is_byte. lia. Qed.

Lemma WInv_create : WInv [] (wcreate P tail).
Proof.
  unfold WInv, wcreate; cbn [wbuf wtail wcur wout]. repeat split; auto using bytes_repeat0; try lia.
  - apply repeat_length.
  - constructor.
  - intros k _. apply gbit_repeat0.
Qed.

Lemma WInv_flush_buf L w : WInv L w -> WInv L (flush_buf w) /\ (wcur (flush_buf w) < 8)%nat.
Proof.
  intros (A & B & C & D & E & G & H). unfold flush_buf. set (l := (wcur w / 8)%nat).
  cbn [wcur]. split; [|lia].
  assert (Hsplit : firstn (wcur w) (bytes_bits (wbuf w)) =
     bytes_bits (firstn l (wbuf w)) ++ firstn (wcur w mod 8) (bytes_bits (skipn l (wbuf w)))).
  { rewrite <- (firstn_skipn l (wbuf w)) at 1. rewrite bytes_bits_app, firstn_app, bytes_bits_length, firstn_length, A.
    rewrite firstn_all2 by (rewrite bytes_bits_length, firstn_length; lia).
    f_equal. f_equal. lia. }
  destruct (Nat.eqb_spec (wcur w mod 8) 0) as [E0|E0].
  - unfold WInv. cbn [wbuf wtail wcur wout]. rewrite A. repeat split; auto using bytes_repeat0.
    + apply repeat_length.
    + apply bytes_app. split; auto. rewrite <- (firstn_skipn l (wbuf w)) in B. apply bytes_app in B. tauto.
    + lia.
    + intros k _. apply gbit_repeat0.
    + rewrite E0. cbn [firstn]. rewrite app_nil_r. rewrite bytes_bits_app, <- H, Hsplit, E0. cbn [firstn].
      rewrite app_nil_r. reflexivity.
  - assert (Hl : (l < P)%nat) by lia.
    assert (Hsk : skipn l (wbuf w) = nth l (wbuf w) 0 :: skipn (S l) (wbuf w)).
    { apply skipn_nth. lia. }
    assert (Hb : is_byte (nth l (wbuf w) 0)) by (apply nth_bytes_is_byte; exact B).
    unfold WInv. cbn [wbuf wtail wcur wout]. rewrite A. repeat split; auto.
    + cbn [length]. rewrite repeat_length. lia.
    + apply bytes_cons. split; auto using bytes_repeat0.
    + apply bytes_app. split; auto. rewrite <- (firstn_skipn l (wbuf w)) in B. apply bytes_app in B. tauto.
    + lia.
    + intros k Hk. destruct (Nat.ltb_spec k 8) as [Hk8|Hk8].
      * specialize (G (8 * l + k)%nat ltac:(lia)). unfold gbit in *.
        replace (k / 8)%nat with 0%nat by lia. cbn [nth].
        replace ((8 * l + k) / 8)%nat with l in G by lia.
        replace ((8 * l + k) mod 8)%nat with (k mod 8)%nat in G by lia. exact G.
      * replace k with (8 * length [nth l (wbuf w) 0%Z] + (k - 8))%nat by (cbn [length]; lia).
        change (nth l (wbuf w) 0 :: repeat 0 (P - 1)) with ([nth l (wbuf w) 0] ++ repeat 0 (P - 1)).
        rewrite gbit_app2. apply gbit_repeat0.
    + rewrite bytes_bits_app, <- H, Hsplit, <- app_assoc. f_equal. f_equal.
      rewrite Hsk. change (bytes_bits (nth l (wbuf w) 0 :: ?x)) with (byte_bits (nth l (wbuf w) 0) ++ bytes_bits x).
      rewrite !firstn_app. replace (length (byte_bits (nth l (wbuf w) 0))) with 8%nat by (unfold byte_bits; rewrite field_bits_length; reflexivity).
      replace (wcur w mod 8 - 8)%nat with 0%nat by lia. reflexivity.
Qed.

Lemma WInv_put L w v n : WInv L w -> (1 <= n <= 32)%nat -> WInv (L ++ field_bits v n) (putbits v n w).
Proof.
  intros HI Hn. unfold putbits.
  assert (HI1 : exists w1, (if Nat.ltb (length (wbuf w) * 8) (wcur w + n) then flush_buf w else w) = w1 /\ WInv L w1 /\ (wcur w1 + n <= 8 * P)%nat).
  { eexists. split; [reflexivity|]. pose proof HI as (A & _ & _ & _ & E & _).
    destruct (Nat.ltb_spec (length (wbuf w) * 8) (wcur w + n)) as [Hf|Hf].
    - destruct (WInv_flush_buf L w HI). split; auto. lia.
    - split; auto. lia. }
  destruct HI1 as (w1 & -> & (A & B & C & D & E & G & H) & Hroom).
  pose proof HI as (A0 & _). rewrite A0.
  set (m := put_word (wbuf w1 ++ wtail w1) (wcur w1) v n).
  assert (Hm : length m = (P + length tail)%nat) by (unfold m; rewrite put_word_length, app_length, A, C; reflexivity).
  assert (Hmb : bytes m) by (unfold m; apply put_word_bytes; apply bytes_app; rewrite C; auto).
  assert (Hmbits : bytes (firstn P m) /\ bytes (skipn P m)) by (apply bytes_app; rewrite firstn_skipn; exact Hmb).
  assert (Hg : forall k, (k < 8 * (P + length tail))%nat -> gbit m k =
     gbit (wbuf w1 ++ tail) k || (Z.testbit v (Z.of_nat (wcur w1) + Z.of_nat n - 1 - Z.of_nat k) && (Z.of_nat (wcur w1) <=? Z.of_nat k))).
  { intros k Hk. unfold m. rewrite C. apply gbit_put; auto. rewrite app_length, A. exact Hk. }
  assert (HLf : length (firstn P m) = P) by (rewrite firstn_length; lia).
  assert (Hgf : forall k, (k < 8 * P)%nat -> gbit (firstn P m) k =
     gbit (wbuf w1) k || (Z.testbit v (Z.of_nat (wcur w1) + Z.of_nat n - 1 - Z.of_nat k) && (Z.of_nat (wcur w1) <=? Z.of_nat k))).
  { intros k Hk. rewrite <- (gbit_app1 (wbuf w1) tail) by lia. rewrite <- Hg by lia.
    rewrite <- (firstn_skipn P m) at 2. rewrite gbit_app1 by lia. reflexivity. }
  unfold WInv. cbn [wbuf wtail wcur wout]. split; [exact HLf|]. split; [tauto|]. split.
  { apply bytes_ext; auto; try tauto.
    - rewrite skipn_length. lia.
    - rewrite skipn_length. intros k Hk.
      assert (E1 : gbit (skipn P m) k = gbit m (8 * P + k)).
      { pose proof (gbit_app2 (firstn P m) (skipn P m) k) as Eg. rewrite firstn_skipn, HLf in Eg. symmetry. exact Eg. }
      rewrite E1, Hg by lia.
      rewrite (Z.testbit_neg_r v) by lia. rewrite andb_false_l, orb_false_r.
      pose proof (gbit_app2 (wbuf w1) tail k) as Eg. rewrite A in Eg. exact Eg. }
  split; [exact D|]. split; [lia|]. split.
  { intros k Hk. destruct (Nat.ltb_spec k (8 * P)) as [Hk8|Hk8].
    - rewrite Hgf by lia. rewrite G by lia. rewrite (Z.testbit_neg_r v) by lia. reflexivity.
    - unfold gbit. rewrite nth_overflow by lia. apply Z.testbit_0_l. }
  rewrite <- H, <- app_assoc. f_equal.
  apply bits_ext.
  - rewrite app_length, !firstn_length, !bytes_bits_length, field_bits_length. lia.
  - rewrite firstn_length, bytes_bits_length. intros k Hk.
    rewrite nth_firstn by lia. rewrite nth_bytes_bits, Hgf by lia.
    destruct (Nat.ltb_spec k (wcur w1)) as [Hc|Hc].
    + rewrite app_nth1 by (rewrite firstn_length, bytes_bits_length; lia).
      rewrite nth_firstn by lia. rewrite nth_bytes_bits.
      replace (Z.of_nat (wcur w1) <=? Z.of_nat k) with false by lia. rewrite andb_false_r, orb_false_r. reflexivity.
    + rewrite app_nth2 by (rewrite firstn_length, bytes_bits_length; lia).
      rewrite firstn_length, bytes_bits_length. rewrite Nat.min_l by lia.
      rewrite nth_field_bits by lia. rewrite G by lia. cbn [orb].
      replace (Z.of_nat (wcur w1) <=? Z.of_nat k) with true by lia. rewrite andb_true_r. f_equal. lia.
Qed.

Lemma WInv_run fs : forall L w, WInv L w -> Forall (fun f => (1 <= snd f <= 32)%nat) fs ->
  WInv (L ++ field_stream fs) (run_puts fs w).
Proof.
  induction fs as [|[v n] fs IH]; intros L w HI HF; cbn [run_puts].
  - unfold field_stream. cbn [flat_map]. rewrite app_nil_r. exact HI.
  - inversion HF as [|? ? Hn HF']; subst. cbn [snd] in Hn.
    specialize (IH _ _ (WInv_put L w v n HI Hn) HF').
    unfold field_stream in *. cbn [flat_map fst snd]. rewrite app_assoc. exact IH.
Qed.

(** after the final flush the storage holds all whole bytes of the stream *)
Lemma WInv_flush L w : WInv L w -> exists rest, L = bytes_bits (wout (flush w)) ++ rest /\ (length rest < 8)%nat /\ wtail (flush w) = tail.
Proof.
  intros HI. unfold flush. destruct (Nat.ltb_spec 7 (wcur w)) as [Hf|Hf].
  - destruct (WInv_flush_buf L w HI) as [(A & B & C & D & E & G & H) Hlt].
    eexists. split; [symmetry; exact H|]. split; [rewrite firstn_length; lia|exact C].
  - destruct HI as (A & B & C & D & E & G & H).
    eexists. split; [symmetry; exact H|]. split; [rewrite firstn_length; lia|exact C].
Qed.

Lemma write_stream fs : Forall (fun f => (1 <= snd f <= 32)%nat) fs ->
  exists rest, field_stream fs = bytes_bits (wout (flush (run_puts fs (wcreate P tail)))) ++ rest /\ (length rest < 8)%nat
    /\ wtail (flush (run_puts fs (wcreate P tail))) = tail.
Proof. intros HF. apply WInv_flush. apply (WInv_run fs [] _ WInv_create HF). Qed.

Lemma WInv_flush_bytes L w : WInv L w -> bytes (wout (flush w)).
Proof.
  intros HI. unfold flush. destruct (Nat.ltb 7 (wcur w)).
  - destruct (WInv_flush_buf L w HI) as [(A & B & C & D & _) _]. exact D.
  - destruct HI as (A & B & C & D & _). exact D.
Qed.
Lemma write_bytes fs : Forall (fun f => (1 <= snd f <= 32)%nat) fs -> bytes (wout (flush (run_puts fs (wcreate P tail)))).
Proof. intros HF. apply (WInv_flush_bytes _ _ (WInv_run fs [] _ WInv_create HF)). Qed.
End W.
