(** Lemmas on bit lists (support for the bit stream proofs). *)
From Coq Require Import ZifyNat.
From Verif Require Import Util Bits_spec.
Local Ltac Zify.zify_post_hook ::= Z.div_mod_to_equations.

(** bit k of a byte string, MSB first *)
Definition gbit (l : list Z) (k : nat) : bool :=
  Z.testbit (nth (k / 8) l 0) (7 - Z.of_nat (k mod 8)).

Lemma field_bits_length v n : length (field_bits v n) = n.
Proof. induction n as [|n IH]; cbn [field_bits length]; congruence. Qed.

Lemma nth_field_bits v n k : (k < n)%nat ->
  nth k (field_bits v n) false = Z.testbit v (Z.of_nat n - 1 - Z.of_nat k).
Proof.
  revert k; induction n as [|n IH]; intros k Hk; [lia|].
  destruct k as [|k]; cbn [field_bits nth].
  - f_equal. lia.
  - rewrite IH by lia. f_equal. lia.
Qed.

Lemma bytes_bits_app a b : bytes_bits (a ++ b) = bytes_bits a ++ bytes_bits b.
Proof. unfold bytes_bits. apply flat_map_app. Qed.

Lemma bytes_bits_length l : length (bytes_bits l) = (8 * length l)%nat.
Proof.
  induction l as [|b l IH]; [reflexivity|].
  cbn [bytes_bits flat_map length]. rewrite app_length. unfold byte_bits at 1. rewrite field_bits_length. fold (bytes_bits l). lia.
Qed.

Lemma nth_bytes_bits l k : nth k (bytes_bits l) false = gbit l k.
Proof.
  revert k; induction l as [|b l IH]; intros k.
  - unfold gbit. replace (nth (k/8) [] 0) with 0 by (destruct (k/8)%nat; reflexivity).
    rewrite Z.testbit_0_l. destruct k; reflexivity.
  - cbn [bytes_bits flat_map]. fold (bytes_bits l).
    destruct (Nat.ltb_spec k 8) as [Hk|Hk].
    + rewrite app_nth1 by (unfold byte_bits; rewrite field_bits_length; lia).
      unfold byte_bits. rewrite nth_field_bits by lia. unfold gbit.
      replace (k/8)%nat with 0%nat by lia. cbn [nth]. f_equal. lia.
    + rewrite app_nth2 by (unfold byte_bits; rewrite field_bits_length; lia).
      unfold byte_bits; rewrite field_bits_length. rewrite IH. unfold gbit.
      replace (k/8)%nat with (S ((k-8)/8)) by lia. cbn [nth]. f_equal. lia.
Qed.

(** bits_val *)
Lemma bits_val_acc bs : forall a,
  fold_left (fun a (b : bool) => 2 * a + (if b then 1 else 0)) bs a = a * 2 ^ Z.of_nat (length bs) + bits_val bs.
Proof.
  unfold bits_val. induction bs as [|b bs IH]; intros a; cbn [fold_left length].
  - change (2 ^ Z.of_nat 0) with 1. lia.
  - rewrite IH. rewrite (IH (2 * 0 + _)).
    replace (Z.of_nat (S (length bs))) with (Z.of_nat (length bs) + 1) by lia.
    rewrite Z.pow_add_r by lia. lia.
Qed.
Lemma bits_val_cons b bs : bits_val (b :: bs) = (if b then 1 else 0) * 2 ^ Z.of_nat (length bs) + bits_val bs.
Proof. unfold bits_val at 1. cbn [fold_left]. rewrite bits_val_acc. destruct b; lia. Qed.
Lemma bits_val_app a b : bits_val (a ++ b) = bits_val a * 2 ^ Z.of_nat (length b) + bits_val b.
Proof. unfold bits_val at 1. rewrite fold_left_app. fold (bits_val a). apply bits_val_acc. Qed.
Lemma bits_val_range bs : 0 <= bits_val bs < 2 ^ Z.of_nat (length bs).
Proof.
  induction bs as [|b bs IH]; [cbn; lia|].
  rewrite bits_val_cons. cbn [length].
  replace (Z.of_nat (S (length bs))) with (Z.of_nat (length bs) + 1) by lia.
  rewrite Z.pow_add_r by lia. destruct b; lia.
Qed.
Lemma testbit_high x n j : 0 <= x < 2 ^ n -> 0 <= n <= j -> Z.testbit x j = false.
Proof.
  intros Hx Hj. rewrite <- (Z.mod_small x (2^n)) by lia. apply Z.mod_pow2_bits_high. lia.
Qed.
Lemma bits_val_testbit bs : forall j, 0 <= j < Z.of_nat (length bs) ->
  Z.testbit (bits_val bs) j = nth (length bs - 1 - Z.to_nat j) bs false.
Proof.
  induction bs as [|b bs IH]; intros j Hj; cbn [length] in *; [lia|].
  rewrite bits_val_cons.
  destruct (Z.eq_dec j (Z.of_nat (length bs))) as [->|Hne].
  - replace (S (length bs) - 1 - Z.to_nat (Z.of_nat (length bs)))%nat with 0%nat by lia. cbn [nth].
    rewrite Z.testbit_eqb by lia. pose proof (bits_val_range bs).
    rewrite Z.div_add_l by lia. rewrite Z.div_small by lia. destruct b; reflexivity.
  - replace (S (length bs) - 1 - Z.to_nat j)%nat with (S (length bs - 1 - Z.to_nat j)) by lia. cbn [nth].
    rewrite <- IH by lia.
    rewrite <- (Z.mod_pow2_bits_low _ (Z.of_nat (length bs)) j) by lia.
    rewrite Z.add_comm, Z.mod_add by lia.
    rewrite Z.mod_pow2_bits_low by lia. reflexivity.
Qed.

(** a number is determined by its bits *)
Lemma eq_bits_val x bs : 0 <= x < 2 ^ Z.of_nat (length bs) ->
  (forall j, 0 <= j < Z.of_nat (length bs) -> Z.testbit x j = nth (length bs - 1 - Z.to_nat j) bs false) ->
  x = bits_val bs.
Proof.
  intros Hx H. apply Z.bits_inj'. intros j Hj.
  destruct (Z.ltb_spec j (Z.of_nat (length bs))) as [Hl|Hl].
  - rewrite H by lia. rewrite bits_val_testbit by lia. reflexivity.
  - rewrite (testbit_high x (Z.of_nat (length bs))) by lia.
    rewrite (testbit_high _ (Z.of_nat (length bs))); [reflexivity|apply bits_val_range|lia].
Qed.

Lemma bits_val_field v n : bits_val (field_bits v n) = v mod 2 ^ Z.of_nat n.
Proof.
  symmetry. apply eq_bits_val; rewrite field_bits_length.
  - apply Z.mod_pos_bound. lia.
  - intros j Hj. rewrite Z.mod_pow2_bits_low by lia. rewrite nth_field_bits by lia. f_equal. lia.
Qed.

Lemma nth_skipn {A} (l : list A) k i d : nth i (skipn k l) d = nth (k + i) l d.
Proof.
  revert k; induction l as [|x l IH]; intros k; destruct k; cbn [skipn nth plus]; try reflexivity.
  - destruct i; reflexivity.
  - apply IH.
Qed.
Lemma nth_firstn {A} (l : list A) k i d : (i < k)%nat -> nth i (firstn k l) d = nth i l d.
Proof.
  revert k i; induction l as [|x l IH]; intros k i H; destruct k; cbn [firstn]; try lia; auto.
  destruct i; cbn [nth]; auto. apply IH. lia.
Qed.

Lemma fields_app ws1 ws2 bs :
  fields (ws1 ++ ws2) bs = fields ws1 bs ++ fields ws2 (skipn (total ws1) bs).
Proof.
  revert bs; induction ws1 as [|w ws IH]; intros bs; cbn [fields app total fold_right].
  - reflexivity.
  - rewrite IH. f_equal. f_equal. rewrite skipn_skipn. f_equal. unfold total. f_equal. lia.
Qed.

Lemma fields_prefix ws a b : (total ws <= length a)%nat -> fields ws (a ++ b) = fields ws a.
Proof.
  revert a; induction ws as [|w ws IH]; intros a H; cbn [fields]; [reflexivity|].
  cbn [total fold_right] in H. fold (total ws) in H.
  rewrite firstn_app, skipn_app. replace (w - length a)%nat with 0%nat by lia.
  cbn [firstn skipn]. rewrite app_nil_r. f_equal. apply IH. rewrite skipn_length. lia.
Qed.

(** reading back fields that were concatenated *)
Lemma fields_concat (fs : list (Z * nat)) rest :
  fields (map snd fs) (flat_map (fun f => field_bits (fst f) (snd f)) fs ++ rest)
  = map (fun f => fst f mod 2 ^ Z.of_nat (snd f)) fs.
Proof.
  induction fs as [|[v n] fs IH]; cbn [fields map flat_map fst snd]; [reflexivity|].
  rewrite <- app_assoc.
  rewrite firstn_app, skipn_app, field_bits_length, Nat.sub_diag.
  rewrite firstn_all2 by (rewrite field_bits_length; lia).
  rewrite skipn_all2 by (rewrite field_bits_length; lia).
  cbn [firstn skipn app]. rewrite app_nil_r, bits_val_field, IH. reflexivity.
Qed.

(** equality of byte strings from equality of bits *)
Lemma byte_eq_bits a b : is_byte a -> is_byte b -> byte_bits a = byte_bits b -> a = b.
Proof.
  intros Ha Hb H. assert (E : bits_val (byte_bits a) = bits_val (byte_bits b)) by congruence.
  unfold byte_bits in E. rewrite !bits_val_field in E. change (2 ^ Z.of_nat 8) with 256 in E.
  unfold is_byte in *. rewrite !Z.mod_small in E by lia. exact E.
Qed.
Lemma bytes_bits_inj a : forall b, bytes a -> bytes b -> bytes_bits a = bytes_bits b -> a = b.
Proof.
  induction a as [|x a IH]; intros [|y b] Ha Hb H; auto.
  - apply (f_equal (@length bool)) in H. rewrite !bytes_bits_length in H. cbn [length] in H. lia.
  - apply (f_equal (@length bool)) in H. rewrite !bytes_bits_length in H. cbn [length] in H. lia.
  - apply bytes_cons in Ha as [Hx Ha]. apply bytes_cons in Hb as [Hy Hb].
    cbn [bytes_bits flat_map] in H. fold (bytes_bits a) in H. fold (bytes_bits b) in H.
    assert (H1 : byte_bits x = byte_bits y).
    { apply (f_equal (firstn 8)) in H. rewrite !firstn_app in H.
      unfold byte_bits in *. rewrite !field_bits_length in H.
      rewrite !firstn_all2 in H by (rewrite field_bits_length; lia).
      cbn [Nat.sub firstn] in H. rewrite !app_nil_r in H. exact H. }
    rewrite H1 in H. apply app_inv_head in H. f_equal; [apply byte_eq_bits; auto|apply IH; auto].
Qed.

Lemma bytes_bits_single b : bytes_bits [b] = byte_bits b.
Proof. unfold bytes_bits. cbn [flat_map]. apply app_nil_r. Qed.
