(** Write/read round trip and the little-endian helpers. *)
From Coq Require Import ZifyNat.
From Verif Require Import Util Bits_spec Bits_lemmas Bitstream_model Bitstream_proofs Bitstream_proofs2 Bitstream_proofs3.
Local Ltac Zify.zify_post_hook ::= Z.div_mod_to_equations.

(** reading back the written file, as many fields as fit in its whole bytes *)
Lemma put_get_roundtrip P tail oob fs done :
  (5 <= P)%nat -> bytes tail -> (forall i, is_byte (oob i)) ->
  Forall (fun f => (1 <= snd f <= 32)%nat) fs -> length done = length fs ->
  (total (map snd fs) mod 8 = 0)%nat ->
  let file := wout (flush (run_puts fs (wcreate P tail))) in
  exists st, run_reads file (length file) oob (combine done (map snd fs)) (create file (length file))
     = Ok (map (fun f => fst f mod 2 ^ Z.of_nat (snd f)) fs, st)
  /\ length file = (total (map snd fs) / 8)%nat.
Proof.
  intros HP Ht Ho HF Hd H8 file.
  destruct (write_stream P tail HP Ht fs HF) as (rest & ES & HR & _). fold file in ES.
  assert (HLs : length (field_stream fs) = total (map snd fs)).
  { unfold field_stream, total. clear. induction fs as [|[v n] fs IH]; [reflexivity|].
    cbn [flat_map map fold_right fst snd]. rewrite app_length, field_bits_length, IH. reflexivity. }
  assert (HLf : (8 * length file + length rest = total (map snd fs))%nat).
  { rewrite <- HLs, ES, app_length, bytes_bits_length. reflexivity. }
  assert (Hr0 : rest = []) by (destruct rest; [reflexivity|cbn [length] in *; lia]). subst rest.
  rewrite app_nil_r in ES. cbn [length] in HLf.
  assert (HFile : bytes file) by (apply write_bytes; auto).
  assert (Hms : map snd (combine done (map snd fs)) = map snd fs).
  { clear -Hd. revert fs Hd. induction done as [|d done IH]; intros [|f fs] Hd; cbn [length] in Hd; try lia; auto.
    cbn [combine map snd]. f_equal. apply IH. lia. }
  assert (HFw : Forall (fun op : bool * nat => (1 <= snd op <= 32)%nat) (combine done (map snd fs))).
  { apply Forall_forall. intros [d n] Hin. apply in_combine_r in Hin. cbn [snd]. apply in_map_iff in Hin as (f & Ef & Hin).
    rewrite Forall_forall in HF. specialize (HF f Hin). subst n. exact HF. }
  destruct (Mem_run file oob HFile Ho (combine done (map snd fs)) (create file (length file)) (Mem_create file) HFw) as (st' & E).
  rewrite Hms in E. pose proof (Mem_create file) as (_ & _ & _ & _ & _ & _ & Htot).
  assert (Hc0 : cur (create file (length file)) = 0%nat).
  { unfold create, internal_read. destruct (eof _ _); reflexivity. }
  rewrite Hc0 in E. cbn [skipn Nat.add] in E.
  replace (Nat.leb (total (map snd fs)) (8 * length file)) with true in E by (symmetry; apply Nat.leb_le; lia).
  exists st'. split; [|lia]. rewrite E. f_equal. f_equal.
  rewrite <- ES. rewrite <- (app_nil_r (field_stream fs)). apply fields_concat.
Qed.

(** ** little endian *)
Lemma le_fields v k : forall i w, 0 <= v ->
  little_put_bytes v i k w = run_puts (map (fun b => (b, 8%nat)) (le_bytes (v / 256 ^ Z.of_nat i) k)) w.
Proof.
  induction k as [|k IH]; intros i w Hv; cbn [little_put_bytes le_bytes map run_puts]; [reflexivity|].
  rewrite IH by exact Hv.
  replace (Z.of_nat (i + 1)) with (Z.of_nat i + 1) by lia.
  rewrite Z.pow_add_r by lia. change (256 ^ 1) with 256. rewrite <- Z.div_div by lia.
  f_equal. f_equal. change (nth 8 tmask 0) with (Z.ones 8). rewrite Z.land_ones by lia. change (2 ^ 8) with 256.
  rewrite Z.shiftr_div_pow2 by lia. rewrite Z.pow_mul_r by lia. change (2 ^ 8) with 256. reflexivity.
Qed.

Lemma le_bytes_bytes v k : bytes (le_bytes v k).
Proof.
  revert v; induction k as [|k IH]; intros v; cbn [le_bytes]; [constructor|].
  apply bytes_cons. split; [unfold is_byte; lia|apply IH].
Qed.
Lemma le_bytes_length v k : length (le_bytes v k) = k.
Proof. revert v; induction k as [|k IH]; intros v; cbn [le_bytes length]; auto. Qed.
Lemma le_val_le_bytes k : forall v, 0 <= v < 256 ^ Z.of_nat k -> le_val (le_bytes v k) = v.
Proof.
  induction k as [|k IH]; intros v Hv; cbn [le_bytes le_val].
  - change (256 ^ Z.of_nat 0) with 1 in Hv. lia.
  - rewrite IH; [lia|]. replace (Z.of_nat (S k)) with (Z.of_nat k + 1) in Hv by lia.
    rewrite Z.pow_add_r in Hv by lia. change (256 ^ 1) with 256 in Hv.
    split; [apply Z.div_pos; lia|]. apply Z.div_lt_upper_bound; lia.
Qed.

Lemma byte_stream bs : bytes bs -> field_stream (map (fun b => (b, 8%nat)) bs) = bytes_bits bs.
Proof.
  intros _. unfold field_stream, bytes_bits. rewrite flat_map_concat_map, map_map, <- flat_map_concat_map. reflexivity.
Qed.

Lemma total_bytes_bits (bs : list Z) : total (map snd (map (fun b => (b, 8%nat)) bs)) = (8 * length bs)%nat.
Proof. induction bs as [|b bs IH]; [reflexivity|]. cbn [map snd total fold_right length] in *. unfold total in IH. rewrite IH. lia. Qed.

(** the bytes a little-endian put appends *)
Lemma little_put_bytes_written P tail v k : (5 <= P)%nat -> bytes tail -> 0 <= v ->
  wout (flush (little_putbits v (8 * k) (wcreate P tail))) = le_bytes v k.
Proof.
  intros HP Ht Hv. unfold little_putbits.
  replace (8 * k / 8)%nat with k by lia. replace (8 * k mod 8)%nat with 0%nat by lia. cbn [Nat.eqb].
  rewrite le_fields by exact Hv. change (256 ^ Z.of_nat 0) with 1. rewrite Z.div_1_r.
  set (fs := map (fun b => (b, 8%nat)) (le_bytes v k)).
  assert (HF : Forall (fun f : Z * nat => (1 <= snd f <= 32)%nat) fs).
  { apply Forall_forall. intros f Hf. apply in_map_iff in Hf as (b & <- & _). cbn [snd]. lia. }
  destruct (write_stream P tail HP Ht fs HF) as (rest & ES & HR & _).
  unfold fs in ES at 1. rewrite byte_stream in ES by apply le_bytes_bytes.
  assert (HLE : (8 * k = 8 * length (wout (flush (run_puts fs (wcreate P tail)))) + length rest)%nat).
  { apply (f_equal (@length bool)) in ES. rewrite app_length, !bytes_bits_length, le_bytes_length in ES. exact ES. }
  assert (rest = []) by (destruct rest; [reflexivity|cbn [length] in *; lia]). subst rest.
  rewrite app_nil_r in ES. symmetry. apply bytes_bits_inj; auto using le_bytes_bytes. apply write_bytes; auto.
Qed.

Section LG.
Variable file : list Z. Variable oob : nat -> Z.
Hypothesis Hfile : bytes file.
Hypothesis Hoob : forall i, is_byte (oob i).

Lemma bits_val_byte c : (c < length file)%nat ->
  bits_val (firstn 8 (skipn (8 * c) (bytes_bits file))) = nth c file 0.
Proof.
  intros Hc. rewrite skipn_bytes_bits. rewrite skipn_nth by exact Hc.
  change (bytes_bits (nth c file 0 :: ?x)) with (byte_bits (nth c file 0) ++ bytes_bits x).
  rewrite firstn_app. rewrite firstn_all2 by (unfold byte_bits; rewrite field_bits_length; lia).
  replace (8 - length (byte_bits (nth c file 0%Z)))%nat with 0%nat by (unfold byte_bits; rewrite field_bits_length; lia).
  cbn [firstn]. rewrite app_nil_r. unfold byte_bits. rewrite bits_val_field. change (2 ^ Z.of_nat 8) with 256.
  pose proof (nth_bytes_is_byte file c Hfile) as Hb. unfold is_byte in Hb. apply Z.mod_small. lia.
Qed.

Lemma little_get_mem k : forall i c x st, Mem file st -> cur st = (8 * c)%nat -> (c + k <= length file)%nat ->
  (i + k <= 4)%nat -> 0 <= x < 256 ^ Z.of_nat i ->
  little_get_bytes file (length file) oob i k x st
  = Ok (x + 256 ^ Z.of_nat i * le_val (slice file c k), advance (8 * k) st).
Proof.
  induction k as [|k IH]; intros i c x st HM Hc HF Hi Hx; cbn [little_get_bytes].
  - unfold slice. cbn [firstn le_val]. rewrite Z.mul_0_r, Z.add_0_r. rewrite Nat.mul_0_r.
    unfold advance. rewrite !Nat.add_0_r. destruct st; reflexivity.
  - rewrite Mem_getbits by (auto; lia).
    replace (Nat.leb _ _) with true by (symmetry; apply Nat.leb_le; lia). cbn [bindo].
    rewrite Hc, bits_val_byte by lia.
    set (b := nth c file 0). assert (Hb : is_byte b) by (apply nth_bytes_is_byte; exact Hfile).
    assert (HM' : Mem file (advance 8 st)) by (apply Mem_advance; auto; lia).
    assert (Hp : 256 ^ Z.of_nat (i + 1) = 256 * 256 ^ Z.of_nat i).
    { replace (Z.of_nat (i + 1)) with (Z.of_nat i + 1) by lia. rewrite Z.pow_add_r by lia. change (256 ^ 1) with 256. lia. }
    assert (Hp0 : 0 < 256 ^ Z.of_nat i) by (apply Z.pow_pos_nonneg; lia).
    assert (Hsh : u32 (Z.shiftl b (8 * Z.of_nat i)) = b * 256 ^ Z.of_nat i).
    { unfold u32. rewrite Z.shiftl_mul_pow2 by lia. rewrite Z.pow_mul_r by lia. change (2 ^ 8) with 256.
      apply Z.mod_small. unfold is_byte in Hb.
      assert (256 ^ Z.of_nat (i + 1) <= 256 ^ 4) by (apply Z.pow_le_mono_r; lia).
      change (256 ^ 4) with (2 ^ 32) in *. nia. }
    assert (Hlor : Z.lor x (u32 (Z.shiftl b (8 * Z.of_nat i))) = x + b * 256 ^ Z.of_nat i).
    { rewrite Hsh. replace (b * 256 ^ Z.of_nat i) with (Z.shiftl b (8 * Z.of_nat i)).
      - rewrite lor_disjoint_add; [|rewrite Z.pow_mul_r by lia; change (2 ^ 8) with 256; exact Hx|lia].
        rewrite Z.shiftl_mul_pow2 by lia. reflexivity.
      - rewrite Z.shiftl_mul_pow2 by lia. rewrite Z.pow_mul_r by lia. reflexivity. }
    rewrite Hlor.
    rewrite (IH (i + 1)%nat (c + 1)%nat); auto.
    + f_equal. f_equal.
      * unfold slice at 2. rewrite skipn_nth by lia. cbn [firstn le_val]. fold b.
        unfold slice. replace (S c) with (c + 1)%nat by lia. rewrite Hp. ring.
      * unfold advance; cbn [buf buf_len cur tot sh sh_len pos pending]. f_equal; lia.
    + cbn [advance cur]. lia.
    + lia.
    + lia.
    + unfold is_byte in Hb. rewrite Hp. nia.
Qed.

Lemma little_get_val k c st : Mem file st -> cur st = (8 * c)%nat -> (c + k <= length file)%nat -> (k <= 4)%nat ->
  little_getbits file (length file) oob (8 * k) st = Ok (le_val (slice file c k), advance (8 * k) st).
Proof.
  intros HM Hc HF Hk. unfold little_getbits.
  replace (8 * k / 8)%nat with k by lia. replace (8 * k mod 8)%nat with 0%nat by lia. cbn [Nat.eqb].
  rewrite (little_get_mem k 0 c 0 st HM Hc HF ltac:(lia)) by (cbn; lia). cbn [bindo].
  change (256 ^ Z.of_nat 0) with 1. rewrite Z.mul_1_l, Z.add_0_l. reflexivity.
Qed.
End LG.

Lemma cur_create file : cur (create file (length file)) = 0%nat.
Proof. unfold create, internal_read. destruct (eof _ _); reflexivity. Qed.

Lemma little_roundtrip P tail oob v k : (5 <= P)%nat -> bytes tail -> (forall i, is_byte (oob i)) ->
  (k <= 4)%nat -> 0 <= v < 256 ^ Z.of_nat k ->
  let file := wout (flush (little_putbits v (8 * k) (wcreate P tail))) in
  file = le_bytes v k /\
  exists st, little_getbits file (length file) oob (8 * k) (create file (length file)) = Ok (v, st).
Proof.
  intros HP Ht Ho Hk Hv file.
  assert (E : file = le_bytes v k) by (apply little_put_bytes_written; auto; lia).
  split; [exact E|]. eexists.
  rewrite (little_get_val file oob) with (c := 0%nat).
  - f_equal. f_equal. rewrite slice_all by (rewrite E, le_bytes_length; lia). rewrite E. apply le_val_le_bytes. exact Hv.
  - rewrite E. apply le_bytes_bytes.
  - exact Ho.
  - apply Mem_create.
  - rewrite cur_create. lia.
  - rewrite E, le_bytes_length. lia.
  - exact Hk.
Qed.
