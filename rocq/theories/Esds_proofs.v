(** Proofs about the esds box (Esds_model). *)
From Verif Require Import Util Bits_spec Bits_lemmas Ts_model Es_model Bitstream_model Ts_proofs Sps_model Sps_proofs Sps_proofs2 Esds_model.
From Coq Require Import ZifyNat.
Local Open Scope Z_scope.
Local Ltac Zify.zify_post_hook ::= Z.div_mod_to_equations.

(** reading whole bytes *)
Definition RB {A} (p : getter A) (l : list Z) (v : A) : Prop := forall r, p (bytes_bits (l ++ r)) = Ok (v, bytes_bits r).
Lemma rb_rd {A} (p : getter A) l v : Rd p (bytes_bits l) v -> RB p l v.
Proof. intros H r. rewrite bytes_bits_app. apply H. Qed.
Lemma rb_bind {A B} (p : getter A) (f : A -> getter B) a b x y : RB p a x -> RB (f x) b y -> RB (gbind p f) (a ++ b) y.
Proof. intros P Q r. unfold gbind. rewrite <- app_assoc, P. cbn [bindo fst snd]. apply Q. Qed.
Lemma rb_bind0 {A B} (p : getter A) (f : A -> getter B) a x y : RB p a x -> RB (f x) [] y -> RB (gbind p f) a y.
Proof. intros P Q. rewrite <- (app_nil_r a). eapply rb_bind; eassumption. Qed.
Lemma rb_ret {A} (v : A) : RB (gret v) [] v. Proof. intro. reflexivity. Qed.
Lemma rb_go {A B} (p : getter A) (f : A -> getter B) a x r : RB p a x -> gbind p f (bytes_bits (a ++ r)) = f x (bytes_bits r).
Proof. intros P. unfold gbind. rewrite P. reflexivity. Qed.
Lemma byte_read b : is_byte b -> RB (getb 8) [b] b.
Proof. intro B. apply rb_rd. rewrite bytes_bits_single. unfold byte_bits. apply rd_getb. unfold is_u, is_byte in *. lia. Qed.
Lemma peek8_ok b r : is_byte b -> peek8 (bytes_bits (b :: r)) = Ok (b, bytes_bits (b :: r)).
Proof.
  intro B. unfold peek8. rewrite bytes_bits_length. cbn [length]. destruct (Nat.leb_spec 8 (8 * S (length r))); [|lia].
  cbn [bytes_bits flat_map]. fold (bytes_bits r). rewrite firstn_app. unfold byte_bits at 1 2. rewrite firstn_all2, field_bits_length by (rewrite field_bits_length; lia).
  replace (8 - 8)%nat with O by lia. cbn [firstn]. rewrite app_nil_r, bits_val_field.
  rewrite Z.mod_small; [reflexivity|]. unfold is_byte in B. exact B.
Qed.
Lemma align8_ok : RB align8 [] tt.
Proof. intro r. unfold align8. rewrite bytes_bits_length. replace ((8 * length ([] ++ r)) mod 8)%nat with O; [reflexivity|]. symmetry. rewrite Nat.mul_comm. apply Nat.mod_mul. lia. Qed.
Lemma bits_cons b r : bytes_bits (b :: r) <> [].
Proof. intro E. apply (f_equal (@length bool)) in E. rewrite bytes_bits_length in E. cbn [length] in E. lia. Qed.

(** sizes *)
Lemma group_small k n : 0 <= n / 2 ^ (7 * Z.of_nat k) mod 128 < 128. Proof. apply Z.mod_pos_bound. lia. Qed.
Lemma get_size_ok : forall k f acc n, (k < f)%nat -> 0 <= acc -> 0 <= n -> acc * 2 ^ (7 * Z.of_nat (S k)) + n mod 2 ^ (7 * Z.of_nat (S k)) < 2 ^ 32 ->
  RB (get_size f acc) (size_groups (S k) n) (acc * 2 ^ (7 * Z.of_nat (S k)) + n mod 2 ^ (7 * Z.of_nat (S k))).
Proof.
  induction k as [|k IH]; intros f acc n F A N R; (destruct f as [|f]; [lia|]).
  - cbn [get_size size_groups Nat.eqb]. change (7 * Z.of_nat 1) with 7 in *. change (7 * Z.of_nat 0) with 0. change (2 ^ 0) with 1. change (2 ^ 7) with 128 in *.
    eapply rb_bind0; [apply byte_read; unfold is_byte; lia|]. cbv zeta. destruct (Z.ltb_spec (0 + n / 1 mod 128) 128); [|lia].
    rewrite Z.div_1_r, Z.add_0_l, Z.mod_mod by lia. unfold u32. rewrite Z.mod_small by (change (2 ^ 32) with 4294967296 in *; lia). apply rb_ret.
  - set (m := S k) in *. cbn [get_size size_groups]. assert (Nat.eqb m 0 = false) as -> by reflexivity.
    pose proof (group_small m n) as G. set (g := n / 2 ^ (7 * Z.of_nat m) mod 128) in *.
    assert (P : 2 ^ (7 * Z.of_nat (S m)) = 128 * 2 ^ (7 * Z.of_nat m)) by (rewrite <- (Z.pow_add_r 2 7) by lia; f_equal; lia).
    set (p := 2 ^ (7 * Z.of_nat m)) in *. assert (Hp : 1 <= p) by (unfold p; pose proof (Z.pow_pos_nonneg 2 (7 * Z.of_nat m)); lia).
    assert (E : n mod (128 * p) = p * g + n mod p).
    { unfold g. rewrite (Z.mul_comm 128 p), Z.rem_mul_r by lia. lia. }
    rewrite P in *. rewrite E in *. change (?a :: ?l) with ([a] ++ l).
    eapply rb_bind; [apply byte_read; unfold is_byte; lia|]. cbv zeta. destruct (Z.ltb_spec (128 + g) 128); [lia|].
    assert (M : 0 <= n mod p < p) by (apply Z.mod_pos_bound; lia).
    replace ((128 + g) mod 128) with g by lia.
    assert (U : u32 (acc * 128 + g) = acc * 128 + g) by (unfold u32; apply Z.mod_small; nia). rewrite U.
    replace (acc * (128 * p) + (p * g + n mod p)) with ((acc * 128 + g) * p + n mod p) by ring.
    apply IH; [lia|lia|exact N|]. fold p. nia.
Qed.
Lemma size_groups_length : forall k n, length (size_groups k n) = k.
Proof. induction k; intros; cbn [size_groups length]; [reflexivity|]. rewrite IHk. reflexivity. Qed.
Lemma size_groups_bytes : forall k n, bytes (size_groups k n).
Proof.
  induction k; intros; cbn [size_groups]; [constructor|]. constructor; [|apply IHk]. unfold is_byte. pose proof (group_small k n). destruct (Nat.eqb k 0); lia.
Qed.
Lemma head_ok tag k n : is_byte tag -> (1 <= k <= 4)%nat -> 0 <= n < 2 ^ (7 * Z.of_nat k) -> RB get_head (tag :: size_groups k n) (tag, n).
Proof.
  intros T K N. unfold get_head. intro r. change (tag :: size_groups k n) with ([] ++ [tag] ++ size_groups k n). rewrite <- !app_assoc.
  rewrite (rb_go _ _ _ _ _ align8_ok). rewrite (rb_go _ _ _ _ _ (byte_read tag T)). destruct k as [|k]; [lia|].
  assert (B : 2 ^ (7 * Z.of_nat (S k)) <= 2 ^ 28) by (apply Z.pow_le_mono_r; lia).
  pose proof (get_size_ok k (S (length (bytes_bits (size_groups (S k) n ++ r)))) 0 n) as G. rewrite Z.mod_small in G by lia. cbn [Z.mul Z.add] in G.
  rewrite G; [|rewrite bytes_bits_length, app_length, size_groups_length; lia|lia|lia|change (2^28) with 268435456 in *; lia].
  cbn [bindo fst snd]. unfold int32. destruct (Z.ltb_spec n (2 ^ 31)); [reflexivity|change (2^28) with 268435456 in *; lia].
Qed.
Lemma pow7 k : (1 <= k <= 4)%nat -> 2 ^ (7 * Z.of_nat k) <= 2 ^ 28. Proof. intro. apply Z.pow_le_mono_r; lia. Qed.
Lemma ext_ok tag k l : is_byte tag -> tag < 0x80 -> size_ok k (length l) -> bytes l -> RB get_ext (desc tag k l) l.
Proof.
  intros T T' [K S0] B. unfold get_ext, desc. change (tag :: size_groups k ?n ++ l) with ((tag :: size_groups k n) ++ l).
  eapply rb_bind; [apply head_ok; [exact T|exact K|lia]|].
  cbv beta iota zeta. assert ((0xD0 <=? tag) = false) as -> by lia. assert ((tag =? 0xE0) = false) as -> by lia. cbn [andb].
  apply (rb_bind _ _ [] l (Z.of_nat (length l))); [apply rb_ret|]. destruct (Z.ltb_spec (Z.of_nat (length l)) 0); [lia|].
  rewrite Nat2Z.id. apply rb_rd, rd_bytes, B.
Qed.

(** big-endian fields *)
Lemma field_app v m n : field_bits v (m + n) = field_bits (v / 2 ^ Z.of_nat n) m ++ field_bits v n.
Proof.
  induction m as [|m IH]; [reflexivity|]. cbn [Nat.add field_bits app]. f_equal; [|exact IH].
  rewrite <- Z.shiftr_div_pow2 by lia. rewrite Z.shiftr_spec by lia. f_equal. lia.
Qed.
Lemma field_low8 v : field_bits v 8 = field_bits (v mod 256) 8. Proof. apply (field_low v 8). Qed.
Lemma big_S n v : big (S n) v = v / 256 ^ Z.of_nat n mod 256 :: big n v.
Proof. unfold big. rewrite seq_S, rev_app_distr. reflexivity. Qed.
Lemma big_bits : forall n v, bytes_bits (big n v) = field_bits v (8 * n).
Proof.
  induction n as [|n IH]; intro v; [reflexivity|]. rewrite big_S. cbn [bytes_bits flat_map]. fold (bytes_bits (big n v)). rewrite IH.
  replace (8 * S n)%nat with (8 + 8 * n)%nat by lia. rewrite field_app. unfold byte_bits. rewrite <- field_low8. do 3 f_equal.
  replace (Z.of_nat (8 * n)) with (8 * Z.of_nat n) by lia. rewrite Z.pow_mul_r by lia. reflexivity.
Qed.
Lemma big_bytes n v : bytes (big n v).
Proof. unfold big. apply Forall_forall. intros x X. apply in_map_iff in X as (i & <- & _). unfold is_byte. apply Z.mod_pos_bound. lia. Qed.
Lemma big_length n v : length (big n v) = n. Proof. unfold big. rewrite map_length, rev_length, seq_length. reflexivity. Qed.
Lemma big_read n v : is_u (8 * n) v -> RB (getb (8 * n)) (big n v) v.
Proof. intro U. apply rb_rd. rewrite big_bits. apply rd_getb, U. Qed.
