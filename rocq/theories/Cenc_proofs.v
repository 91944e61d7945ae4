From Coq Require Import ZifyNat.
From Verif Require Import Util SampleTab_model SampleTab_proofs HlsCrypt_model Box_model Box_proofs Cenc_model TsTime_proofs.
Local Open Scope Z_scope.
Local Ltac Zify.zify_post_hook ::= Z.div_mod_to_equations.
(** ** The counters *)
Lemma lor_add' : forall a b n, 0 <= n -> 0 <= b < 2 ^ n -> Z.lor (a * 2 ^ n) b = a * 2 ^ n + b.
Proof.
  intros a b n Hn Hb. apply TsTime_proofs.lor_add; assumption.
Qed.
Lemma land_shift : forall b m k, is_byte b -> 0 <= k -> m = 255 * 2 ^ k -> Z.land (Z.shiftl b k) m = b * 2 ^ k.
Proof.
  intros b m k Hb Hk ->. rewrite <- Z.shiftl_mul_pow2 by lia. rewrite <- Z.shiftl_land. rewrite <- (Z.shiftl_mul_pow2 b) by lia. f_equal. change 255 with (Z.ones 8). rewrite Z.land_ones by lia. apply Z.mod_small. unfold is_byte in Hb. lia.
Qed.
Lemma four : forall a b c d, is_byte a -> is_byte b -> is_byte c -> is_byte d ->
  Z.lor (Z.lor (Z.lor (Z.land (Z.shiftl a 24) 4278190080) (Z.land (Z.shiftl b 16) 16711680)) (Z.land (Z.shiftl c 8) 65280)) (Z.land d 255) = ((a * 256 + b) * 256 + c) * 256 + d.
Proof.
  intros a b c d Ha Hb Hc Hd. rewrite !land_shift by (try assumption; try reflexivity; lia). change 255 with (Z.ones 8). rewrite Z.land_ones by lia. rewrite (Z.mod_small d) by (unfold is_byte in Hd; lia). unfold is_byte in *.
  rewrite (lor_add' a (b * 2 ^ 16) 24) by lia. replace (a * 2 ^ 24 + b * 2 ^ 16) with ((a * 256 + b) * 2 ^ 16) by lia. rewrite lor_add' by lia. replace ((a * 256 + b) * 2 ^ 16 + c * 2 ^ 8) with (((a * 256 + b) * 256 + c) * 2 ^ 8) by lia. rewrite lor_add' by lia. lia.
Qed.
Lemma eight : forall a b, 0 <= a < 2 ^ 32 -> 0 <= b < 2 ^ 32 -> Z.lor b (Z.land (Z.shiftl a 32) 18446744069414584320) = a * 2 ^ 32 + b.
Proof.
  intros a b Ha Hb. change 18446744069414584320 with (Z.shiftl (Z.ones 32) 32). rewrite <- Z.shiftl_land, Z.land_ones, Z.mod_small by lia. rewrite Z.shiftl_mul_pow2, Z.lor_comm by lia. apply lor_add'; lia.
Qed.
Lemma out_bytes : forall v, map (fun s => Z.land (Z.shiftr v s) 255) [56; 48; 40; 32; 24; 16; 8; 0] = be 8 v.
Proof.
  intros v. cbn [map be app]. rewrite !Z.div_div by lia. change 255 with (Z.ones 8). rewrite !Z.land_ones, !Z.shiftr_div_pow2 by lia. change (2 ^ 8) with 256. change (2 ^ 0) with 1. rewrite Z.div_1_r. reflexivity.
Qed.
Lemma counter8_spec : forall c, is_iv c -> counter8 c = be 8 ((be_val 0 c + 1) mod 2 ^ 64).
Proof.
  intros c [L B]. destruct c as [|c0 [|c1 [|c2 [|c3 [|c4 [|c5 [|c6 [|c7 [|]]]]]]]]]; try discriminate. repeat (apply bytes_cons in B; destruct B as [? B]). unfold counter8. cbn [nth]. rewrite !four by assumption. unfold is_byte in *. rewrite eight by lia. rewrite out_bytes. f_equal. unfold u64. f_equal. cbn [be_val]. lia.
Qed.
Lemma be_val_bound : forall l acc, bytes l -> 0 <= acc -> 0 <= be_val acc l < (acc + 1) * 256 ^ Z.of_nat (length l).
Proof.
  induction l as [|x l IH]; intros acc B H; [cbn [be_val length]; change (256 ^ Z.of_nat 0) with 1; lia|]. apply bytes_cons in B. destruct B as [Bx B]. unfold is_byte in Bx. cbn [be_val length]. rewrite Nat2Z.inj_succ, Z.pow_succ_r by lia. destruct (IH (acc * 256 + x) B ltac:(lia)) as [I1 I2]. split; [exact I1|]. eapply Z.lt_le_trans; [exact I2|]. assert (0 < 256 ^ Z.of_nat (length l)) by lia. nia.
Qed.
Lemma be_be_val : forall l, bytes l -> be (length l) (be_val 0 l) = l.
Proof.
  intros l. induction l as [|x l IH] using rev_ind; intros B; [reflexivity|]. apply bytes_app in B. destruct B as [B Bx]. apply Forall_inv in Bx. unfold is_byte in Bx. rewrite be_val_app. cbn [be_val]. rewrite app_length, Nat.add_comm. cbn [Nat.add length be]. replace ((be_val 0 l * 256 + x) / 256) with (be_val 0 l) by lia. replace ((be_val 0 l * 256 + x) mod 256) with x by lia. rewrite IH by exact B. reflexivity.
Qed.
Lemma iv_num : forall iv, is_iv iv -> 0 <= be_val 0 iv < 2 ^ 64 /\ be 8 (be_val 0 iv) = iv.
Proof. intros iv [L B]. split; [pose proof (be_val_bound iv 0 B ltac:(lia)) as H; rewrite L in H; exact H|]. rewrite <- L. apply be_be_val. exact B. Qed.
Lemma be8_iv : forall v, is_iv (be 8 v). Proof. intros. split; [apply be_length|apply be_bytes]. Qed.
Lemma be8_val : forall v, 0 <= v < 2 ^ 64 -> be_val 0 (be 8 v) = v. Proof. intros v H. rewrite be_val_be; [lia|exact H]. Qed.
Lemma counter8_be : forall v, 0 <= v < 2 ^ 64 -> counter8 (be 8 v) = be 8 ((v + 1) mod 2 ^ 64).
Proof. intros v H. rewrite counter8_spec by apply be8_iv. rewrite be8_val by exact H. reflexivity. Qed.
Lemma all_ones : forall v, 0 <= v < 2 ^ 64 - 1 -> forallb (fun x => x =? 255) (be 8 v) = false.
Proof.
  intros v H. destruct (forallb _ _) eqn:E; [|reflexivity]. exfalso. assert (A : be 8 v = repeat 255 8). { pose proof (be_length 8 v) as L. revert L E. generalize (be 8 v). intros l L E. destruct l as [|c0 [|c1 [|c2 [|c3 [|c4 [|c5 [|c6 [|c7 [|]]]]]]]]]; try discriminate. cbn [forallb] in E. rewrite !andb_true_iff, !Z.eqb_eq in E. destruct E as (-> & -> & -> & -> & -> & -> & -> & -> & _). reflexivity. }
  pose proof (be8_val v ltac:(lia)) as Q. rewrite A in Q. cbn [repeat be_val] in Q. lia.
Qed.
Lemma firstn_app_n : forall {A} n (a b : list A), length a = n -> firstn n (a ++ b) = a /\ skipn n (a ++ b) = b.
Proof. intros A n a b <-. split; [rewrite <- (Nat.add_0_r (length a)), firstn_app_2, firstn_O, app_nil_r; reflexivity|]. rewrite skipn_app, skipn_all, Nat.sub_diag. reflexivity. Qed.
Lemma counter_next : forall v i, 0 <= i < 2 ^ 64 - 1 -> counter (counter_block v i) = counter_block v (i + 1).
Proof.
  intros v i H. unfold counter, counter_block. destruct (firstn_app_n 8 (be 8 v) (be 8 i) (be_length 8 v)) as [-> ->]. rewrite all_ones by exact H. rewrite counter8_be by lia. rewrite Z.mod_small by lia. reflexivity.
Qed.
Lemma counter_carry : forall v, 0 <= v < 2 ^ 64 -> counter (counter_block v (2 ^ 64 - 1)) = counter_block ((v + 1) mod 2 ^ 64) 0.
Proof.
  intros v H. unfold counter, counter_block. destruct (firstn_app_n 8 (be 8 v) (be 8 (2 ^ 64 - 1)) (be_length 8 v)) as [-> ->].
  replace (be 8 (2 ^ 64 - 1)) with (repeat 255 8) by (vm_compute; reflexivity). replace (be 8 0) with (repeat 0 8) by (vm_compute; reflexivity). cbn [repeat forallb]. rewrite counter8_be by exact H. reflexivity.
Qed.
Lemma block_val : forall v i, 0 <= v < 2 ^ 64 -> 0 <= i < 2 ^ 64 -> be_val 0 (counter_block v i) = v * 2 ^ 64 + i.
Proof. intros v i H1 H2. unfold counter_block. rewrite be_val_app, be8_val by exact H1. rewrite be_val_be; [reflexivity|exact H2]. Qed.
Lemma counter_spec : forall c, length c = 16%nat -> bytes c -> length (counter c) = 16%nat /\ bytes (counter c) /\ be_val 0 (counter c) = (be_val 0 c + 1) mod 2 ^ 128.
Proof.
  intros c L B. rewrite <- (firstn_skipn 8 c) in B. apply bytes_app in B as [B1 B2].
  destruct (iv_num (firstn 8 c)) as [V1 V2]; [split; [rewrite firstn_length; lia|exact B1]|]. destruct (iv_num (skipn 8 c)) as [W1 W2]; [split; [rewrite skipn_length; lia|exact B2]|].
  set (v := be_val 0 (firstn 8 c)) in *. set (i := be_val 0 (skipn 8 c)) in *.
  assert (C : c = counter_block v i) by (unfold counter_block; rewrite V2, W2; symmetry; apply firstn_skipn).
  assert (G : exists v' i', counter c = counter_block v' i' /\ 0 <= v' < 2 ^ 64 /\ 0 <= i' < 2 ^ 64 /\ v' * 2 ^ 64 + i' = (v * 2 ^ 64 + i + 1) mod 2 ^ 128).
  { rewrite C. destruct (Z.eq_dec i (2 ^ 64 - 1)) as [Q|N].
    - rewrite Q. exists ((v + 1) mod 2 ^ 64), 0. rewrite counter_carry by exact V1. split; [reflexivity|]. split; [apply Z.mod_pos_bound; lia|]. split; [lia|].
      destruct (Z.eq_dec v (2 ^ 64 - 1)) as [->|]; [reflexivity|]. rewrite !Z.mod_small by lia. lia.
    - exists v, (i + 1). rewrite counter_next by lia. split; [reflexivity|]. split; [lia|]. split; [lia|]. rewrite Z.mod_small by lia. lia. }
  destruct G as (v' & i' & G & G1 & G2 & G3). rewrite G. split; [unfold counter_block; rewrite app_length, !be_length; reflexivity|]. split; [unfold counter_block; apply bytes_app; split; apply be_bytes|].
  rewrite block_val by assumption. rewrite G3, C, block_val by assumption. reflexivity.
Qed.
Lemma start_block : forall iv, is_iv iv -> iv ++ repeat 0 8 = counter_block (be_val 0 iv) 0.
Proof. intros iv H. unfold counter_block. rewrite (proj2 (iv_num iv H)). reflexivity. Qed.
(** ** Counter mode *)
Lemma xor_split : forall n d k ks, length k = n -> xor_bytes (firstn n d) k ++ xor_bytes (skipn n d) ks = xor_bytes d (k ++ ks).
Proof.
  induction n as [|n IH]; intros d [|x k] ks L; try discriminate; [rewrite firstn_O; reflexivity|]. destruct d as [|y d]; [reflexivity|]. change (firstn (S n) (y :: d)) with (y :: firstn n d). change (skipn (S n) (y :: d)) with (skipn n d). cbn [xor_bytes app]. rewrite IH by (cbn in L; lia). reflexivity.
Qed.
Lemma xor_twice' : forall d k, (length d <= length k)%nat -> xor_bytes (xor_bytes d k) k = d.
Proof. induction d as [|x d IH]; intros [|y k] L; cbn in L; try lia; try reflexivity. cbn [xor_bytes]. rewrite IH by lia. rewrite Z.lxor_assoc, Z.lxor_nilpotent, Z.lxor_0_r. reflexivity. Qed.
Lemma xor_len : forall d k, (length d <= length k)%nat -> length (xor_bytes d k) = length d.
Proof. induction d as [|x d IH]; intros [|y k] L; cbn in *; try lia. rewrite IH by lia. reflexivity. Qed.
Definition ks (E : list Z -> list Z) (v i : Z) (n : nat) : list Z := concat (map (fun i => E (counter_block v i)) (zseq i n)).
Lemma ks_length : forall E v n i, cipher E -> length (ks E v i n) = (16 * n)%nat.
Proof. intros E v n i C. unfold ks. revert i. induction n as [|n IH]; intros i; [reflexivity|]. cbn [zseq map concat]. rewrite app_length, IH, C. lia. Qed.
Lemma ctr_spec : forall E, cipher E -> forall n v i data, 0 <= i -> i + Z.of_nat n <= 2 ^ 64 - 1 -> ctr E n (counter_block v i) data = (xor_bytes data (ks E v i n), counter_block v (i + Z.of_nat n)).
Proof.
  intros E C. induction n as [|n IH]; intros v i data Hi Hn; [cbn [ctr]; unfold ks; cbn; rewrite Z.add_0_r; destruct data; reflexivity|]. cbn [ctr]. rewrite counter_next by lia. rewrite IH by lia. f_equal; [|f_equal; lia]. unfold ks. cbn [zseq map concat]. apply xor_split. apply C.
Qed.
Lemma nblocks_enough : forall len, 0 <= len -> len <= 16 * Z.of_nat (nblocks len) < len + 16. Proof. intros. unfold nblocks. lia. Qed.
Definition small (body : list Z) : Prop := zlen body < 2 ^ 32.
Lemma ctr_iv : forall E iv data n, cipher E -> is_iv iv -> Z.of_nat n <= 2 ^ 32 -> ctr E n (iv ++ repeat 0 8) data = (xor_bytes data (key_stream E (be_val 0 iv) n), counter_block (be_val 0 iv) (Z.of_nat n)).
Proof. intros E iv data n C I H. rewrite start_block by exact I. rewrite ctr_spec; [reflexivity|exact C|lia|]. assert (2 ^ 32 <= 2 ^ 64 - 1) by lia. lia. Qed.
(** ** A sample *)
Definition clear_of (sub : bool) (size : Z) : Z := if sub then if size <=? 112 then size else 96 + size mod 16 else 0.
Lemma clear_bounds : forall sub size, 0 <= size -> 0 <= clear_of sub size <= size.
Proof. intros sub size H. unfold clear_of. destruct sub; [|lia]. destruct (Z.leb_spec size 112); lia. Qed.
Lemma encrypt_sample_spec : forall E sub iv body, cipher E -> is_iv iv -> small body -> let clear := clear_of sub (zlen body) in
  encrypt_sample E sub iv body = (firstn (Z.to_nat clear) body ++ xor_bytes (skipn (Z.to_nat clear) body) (key_stream E (be_val 0 iv) (nblocks (zlen body - clear))), mkE iv clear (zlen body - clear), be 8 ((be_val 0 iv + 1) mod 2 ^ 64)).
Proof.
  intros E sub iv body C I H clear. unfold small in H. pose proof (zlen_nonneg body) as Hn. pose proof (clear_bounds sub (zlen body) Hn) as Hc. fold clear in Hc.
  assert (Ee : encrypt_sample E sub iv body = encrypt E iv body clear (zlen body - clear)).
  { unfold encrypt_sample, clear, clear_of. change (96 + 16) with 112. destruct sub; [|rewrite Z.sub_0_r; reflexivity]. destruct (zlen body <=? 112); [rewrite Z.sub_diag; reflexivity|reflexivity]. }
  rewrite Ee. clearbody clear. unfold encrypt. assert (Lp : length (skipn (Z.to_nat clear) body) = Z.to_nat (zlen body - clear)) by (rewrite skipn_length; unfold zlen in *; lia).
  rewrite <- Lp, firstn_all, skipn_all, app_nil_r. rewrite counter8_spec by exact I. destruct (Z.eqb_spec (zlen body - clear) 0) as [Z0|NZ].
  - assert (skipn (Z.to_nat clear) body = []) as -> by (apply length_zero_iff_nil; lia). cbn [xor_bytes]. reflexivity.
  - rewrite ctr_iv; [reflexivity|exact C|exact I|]. pose proof (nblocks_enough (zlen body - clear) ltac:(lia)). lia.
Qed.
Lemma decrypt_ok : forall E sub iv body out e iv', cipher E -> is_iv iv -> small body -> encrypt_sample E sub iv body = (out, e, iv') -> decrypt E (e_iv e) [(e_clear e, e_protected e)] out = body.
Proof.
  intros E sub iv body out e iv' C I H Q. rewrite encrypt_sample_spec in Q by assumption. injection Q as <- <- <-. cbn [e_iv e_clear e_protected]. unfold decrypt. pose proof (zlen_nonneg body) as Hn. pose proof (clear_bounds sub (zlen body) Hn) as Hc. set (clear := clear_of sub (zlen body)) in *. clearbody clear. unfold small in H.
  set (p := skipn (Z.to_nat clear) body). assert (Lp : length p = Z.to_nat (zlen body - clear)) by (unfold p; rewrite skipn_length; unfold zlen in *; lia).
  set (k := key_stream E (be_val 0 iv) (nblocks (zlen body - clear))). pose proof (nblocks_enough (zlen body - clear) ltac:(lia)) as NB.
  assert (Lk : (length p <= length k)%nat). { unfold k, key_stream. fold (ks E (be_val 0 iv) 0 (nblocks (zlen body - clear))). rewrite ks_length by exact C. lia. }
  assert (Lc : length (firstn (Z.to_nat clear) body) = Z.to_nat clear) by (rewrite firstn_length; unfold zlen in *; lia).
  cbn [decrypt_sub]. destruct (firstn_app_n (Z.to_nat clear) (firstn (Z.to_nat clear) body) (xor_bytes p k) Lc) as [-> ->].
  destruct (Z.eqb_spec (zlen body - clear) 0) as [Z0|NZ].
  - assert (p = []) as Ep by (apply length_zero_iff_nil; lia). rewrite app_nil_r. rewrite <- (firstn_skipn (Z.to_nat clear) body) at 2. fold p. rewrite Ep, app_nil_r. reflexivity.
  - assert (Lx : length (xor_bytes p k) = Z.to_nat (zlen body - clear)) by (rewrite xor_len by exact Lk; exact Lp). rewrite <- Lx. rewrite firstn_all. rewrite ctr_iv; [|exact C|exact I|lia]. fold k. rewrite xor_twice' by exact Lk. rewrite app_nil_r. apply firstn_skipn.
Qed.
(** ** A fragment *)
Lemma encrypt_samples_nth : forall E sub l iv j, cipher E -> is_iv iv -> Forall small l -> (j < length l)%nat -> let ivj := be 8 ((be_val 0 iv + Z.of_nat j) mod 2 ^ 64) in
  exists iv', encrypt_sample E sub ivj (nth j l []) = (nth j (encrypt_samples E sub iv l) ([], mkE [] 0 0), iv').
Proof.
  intros E sub. induction l as [|body l IH]; intros iv j C I F Hj ivj; [cbn in Hj; lia|]. cbn [encrypt_samples]. destruct (encrypt_sample E sub iv body) as [[out e] iv1] eqn:Q. pose proof Q as Q0. rewrite encrypt_sample_spec in Q by (try assumption; exact (Forall_inv F)). injection Q as <- <- <-. destruct (iv_num iv I) as [V1 V2]. destruct j as [|j].
  - cbn [nth]. unfold ivj. rewrite Z.add_0_r, Z.mod_small by exact V1. rewrite V2. eexists. exact Q0.
  - cbn [nth length] in *. set (w := (be_val 0 iv + 1) mod 2 ^ 64). assert (Hw : 0 <= w < 2 ^ 64) by (unfold w; apply Z.mod_pos_bound; lia). destruct (IH (be 8 w) j C (be8_iv _) (Forall_inv_tail F) ltac:(lia)) as (iv' & Ej). exists iv'. etransitivity; [|exact Ej]. f_equal. unfold ivj. f_equal. rewrite be8_val by exact Hw. unfold w. rewrite Zplus_mod_idemp_l. f_equal. lia.
Qed.
Lemma encrypt_samples_length : forall E sub l iv, length (encrypt_samples E sub iv l) = length l.
Proof. intros E sub. induction l as [|b l IH]; intros iv; [reflexivity|]. cbn [encrypt_samples]. destruct (encrypt_sample E sub iv b) as [[o e] i]. cbn [length]. rewrite IH. reflexivity. Qed.
Lemma counter_block_inj : forall v i v' i', 0 <= v < 2 ^ 64 -> 0 <= v' < 2 ^ 64 -> 0 <= i < 2 ^ 64 -> 0 <= i' < 2 ^ 64 -> counter_block v i = counter_block v' i' -> v = v' /\ i = i'.
Proof. intros v i v' i' H1 H2 H3 H4 E. unfold counter_block in E. apply app_split4 in E; [|rewrite !be_length; reflexivity]. destruct E as [E1 E2]. apply (f_equal (be_val 0)) in E1, E2. rewrite !be8_val in E1, E2 by assumption. split; assumption. Qed.
(** ** Together *)
Lemma sample_formula : forall E sub l iv j, cipher E -> is_iv iv -> Forall small l -> (j < length l)%nat ->
  let body := nth j l [] in let v := (be_val 0 iv + Z.of_nat j) mod 2 ^ 64 in let r := nth j (encrypt_samples E sub iv l) ([], mkE [] 0 0) in let clear := e_clear (snd r) in
  e_iv (snd r) = be 8 v /\ e_clear (snd r) + e_protected (snd r) = zlen body /\ clear = clear_of sub (zlen body)
  /\ fst r = firstn (Z.to_nat clear) body ++ xor_bytes (skipn (Z.to_nat clear) body) (key_stream E v (nblocks (e_protected (snd r)))).
Proof.
  intros E sub l iv j C I F Hj body v r clear. destruct (encrypt_samples_nth E sub l iv j C I F Hj) as (iv' & Q). fold body v in Q. rewrite encrypt_sample_spec in Q; [|exact C|apply be8_iv|apply Forall_nth; assumption]. unfold clear, r. clear r clear. destruct (nth j (encrypt_samples E sub iv l) ([], mkE [] 0 0)) as [out e]. apply pair_equal_spec in Q. destruct Q as [Q _]. apply pair_equal_spec in Q. destruct Q as [Q1 Q2]. subst out e. cbn [fst snd e_iv e_clear e_protected]. rewrite be8_val by (unfold v; apply Z.mod_pos_bound; lia).
  split; [reflexivity|]. split; [lia|]. split; reflexivity.
Qed.
Lemma decrypt_samples : forall E sub l iv j, cipher E -> is_iv iv -> Forall small l -> (j < length l)%nat -> let r := nth j (encrypt_samples E sub iv l) ([], mkE [] 0 0) in
  zlen (fst r) = zlen (nth j l []) /\ decrypt E (e_iv (snd r)) [(e_clear (snd r), e_protected (snd r))] (fst r) = nth j l [].
Proof.
  intros E sub l iv j C I F Hj r. destruct (encrypt_samples_nth E sub l iv j C I F Hj) as (iv' & Q). fold r in Q. destruct (sample_formula E sub l iv j C I F Hj) as (S1 & S2 & S3 & S4). fold r in S1, S2, S3, S4. destruct r as [out e]. cbn [fst snd] in *. split; [|eapply decrypt_ok; [exact C|apply be8_iv| |exact Q]; apply Forall_nth; assumption].
  pose proof (zlen_nonneg (nth j l [])). pose proof (clear_bounds sub (zlen (nth j l [])) H). rewrite <- S3 in H0. rewrite S4. unfold zlen in *. rewrite app_length, xor_len, firstn_length, skipn_length; [lia|]. rewrite skipn_length. unfold key_stream. fold (ks E ((be_val 0 iv + Z.of_nat j) mod 2 ^ 64) 0 (nblocks (e_protected e))). rewrite ks_length by exact C. pose proof (nblocks_enough (e_protected e) ltac:(lia)). lia.
Qed.
Lemma no_reuse : forall E sub l iv j j' i i', cipher E -> is_iv iv -> Forall small l -> Z.of_nat (length l) <= 2 ^ 64 -> (j < length l)%nat -> (j' < length l)%nat -> 0 <= i < 2 ^ 64 -> 0 <= i' < 2 ^ 64 -> (j, i) <> (j', i') ->
  let v k := be_val 0 (e_iv (snd (nth k (encrypt_samples E sub iv l) ([], mkE [] 0 0)))) in counter_block (v j) i <> counter_block (v j') i'.
Proof.
  intros E sub l iv j j' i i' C I F Hl Hj Hj' Hi Hi' N v Q. destruct (sample_formula E sub l iv j C I F Hj) as (S1 & _). destruct (sample_formula E sub l iv j' C I F Hj') as (S1' & _). unfold v in Q. rewrite S1, S1' in Q. pose proof (Z.mod_pos_bound (be_val 0 iv + Z.of_nat j) (2 ^ 64) ltac:(lia)) as B1. pose proof (Z.mod_pos_bound (be_val 0 iv + Z.of_nat j') (2 ^ 64) ltac:(lia)) as B2. rewrite !be8_val in Q by assumption. apply counter_block_inj in Q; try assumption. destruct Q as [Q ->].
  apply N. f_equal. destruct (iv_num iv I) as [V _]. set (a := be_val 0 iv) in *. clearbody a. clear - Q V Hl Hj Hj'. lia.
Qed.
