(** Lemmas on segment encryption. *)
From Coq Require Import ZifyNat.
From Verif Require Import Util HlsCrypt_model.
Local Open Scope Z_scope.
Local Ltac Zify.zify_post_hook ::= Z.div_mod_to_equations.

Lemma xor_length : forall a b, length a = length b -> length (xor_bytes a b) = length a.
Proof. induction a as [|x a IH]; intros [|y b] L; cbn [length xor_bytes] in *; try lia. rewrite IH; lia. Qed.
Lemma xor_byte : forall x y, is_byte x -> is_byte y -> is_byte (Z.lxor x y).
Proof.
  intros x y X Y. unfold is_byte in *. destruct (Z.eq_dec (Z.lxor x y) 0) as [->|N]; [lia|].
  assert (0 <= Z.lxor x y) by (apply Z.lxor_nonneg; lia). split; [assumption|].
  destruct (Z_lt_ge_dec (Z.lxor x y) 256) as [?|G]; [assumption|]. exfalso.
  assert (8 <= Z.log2 (Z.lxor x y)) by (apply Z.log2_le_pow2; [lia|change (2 ^ 8) with 256; lia]).
  pose proof (Z.log2_lxor x y ltac:(lia) ltac:(lia)).
  assert (Hl : forall z, 0 <= z < 256 -> Z.log2 z < 8). { intros z Hz. destruct (Z.eq_dec z 0) as [->|?]; [reflexivity|]. apply Z.log2_lt_pow2; [lia|change (2 ^ 8) with 256; lia]. }
  pose proof (Hl x X). pose proof (Hl y Y). lia.
Qed.
Lemma xor_bytes_ok : forall a b, bytes a -> bytes b -> bytes (xor_bytes a b).
Proof. induction a as [|x a IH]; intros [|y b] A B; try constructor. - apply xor_byte; [exact (Forall_inv A)|exact (Forall_inv B)]. - apply IH; [exact (Forall_inv_tail A)|exact (Forall_inv_tail B)]. Qed.
Lemma xor_twice : forall a b, length a = length b -> xor_bytes a (xor_bytes a b) = b.
Proof.
  induction a as [|x a IH]; intros [|y b] L; cbn [length xor_bytes] in *; try lia; [reflexivity|].
  rewrite IH by lia. rewrite <- Z.lxor_assoc, Z.lxor_nilpotent, Z.lxor_0_l. reflexivity.
Qed.
Lemma xor_block : forall a b, is_block a -> is_block b -> is_block (xor_bytes a b).
Proof. intros a b (A1 & A2) (B1 & B2). split; [rewrite xor_length; lia|apply xor_bytes_ok; assumption]. Qed.
Lemma bytes_firstn' : forall n l, bytes l -> bytes (firstn n l).
Proof. intros n l H. apply (proj1 (bytes_app (firstn n l) (skipn n l))). rewrite firstn_skipn. exact H. Qed.
Lemma bytes_skipn' : forall n l, bytes l -> bytes (skipn n l).
Proof. intros n l H. apply (proj1 (bytes_app (firstn n l) (skipn n l))). rewrite firstn_skipn. exact H. Qed.

Section C.
  Variables E D : list Z -> list Z.
  Hypothesis B : block_cipher E D.
  Lemma cbc_len : forall n iv data, is_block iv -> bytes data -> (16 * n <= length data)%nat ->
    length (fst (cbc_encrypt E n iv data)) = (16 * n)%nat /\ bytes (fst (cbc_encrypt E n iv data)) /\ is_block (snd (cbc_encrypt E n iv data)).
  Proof.
    induction n as [|n IH]; intros iv data I Bd L; cbn [cbc_encrypt]; [split; [reflexivity|]; split; [constructor|exact I]|].
    set (c := E (xor_bytes iv (firstn 16 data))).
    assert (C : is_block c). { apply B. apply xor_block; [exact I|]. split; [rewrite firstn_length; lia|apply bytes_firstn'; exact Bd]. }
    destruct (IH c (skipn 16 data) C (bytes_skipn' 16 data Bd) ltac:(rewrite skipn_length; lia)) as (X & Y & W).
    destruct (cbc_encrypt E n c (skipn 16 data)) as (r & iv'). cbn [fst snd] in *.
    split; [rewrite app_length, X; destruct C as (-> & _); lia|]. split; [apply bytes_app; split; [apply C|exact Y]|exact W].
  Qed.
  (** the two calls are one *)
  Lemma cbc_app : forall n m iv d1 d2, length d1 = (16 * n)%nat ->
    fst (cbc_encrypt E (n + m) iv (d1 ++ d2)) = fst (cbc_encrypt E n iv d1) ++ fst (cbc_encrypt E m (snd (cbc_encrypt E n iv d1)) d2).
  Proof.
    induction n as [|n IH]; intros m iv d1 d2 L.
    - destruct d1; [reflexivity|cbn [length] in L; lia].
    - change (S n + m)%nat with (S (n + m)). cbn [cbc_encrypt].
      replace (firstn 16 (d1 ++ d2)) with (firstn 16 d1) by (rewrite firstn_app; replace (16 - length d1)%nat with 0%nat by lia; rewrite firstn_O, app_nil_r; reflexivity).
      replace (skipn 16 (d1 ++ d2)) with (skipn 16 d1 ++ d2) by (rewrite skipn_app; replace (16 - length d1)%nat with 0%nat by lia; reflexivity).
      specialize (IH m (E (xor_bytes iv (firstn 16 d1))) (skipn 16 d1) d2 ltac:(rewrite skipn_length; lia)).
      destruct (cbc_encrypt E (n + m) (E (xor_bytes iv (firstn 16 d1))) (skipn 16 d1 ++ d2)) as (r & i1).
      destruct (cbc_encrypt E n (E (xor_bytes iv (firstn 16 d1))) (skipn 16 d1)) as (r2 & i2). cbn [fst snd] in *. rewrite IH, app_assoc. reflexivity.
  Qed.
  Lemma cbc_prefix : forall n iv d r, (16 * n <= length d)%nat -> cbc_encrypt E n iv (d ++ r) = cbc_encrypt E n iv d.
  Proof.
    induction n as [|n IH]; intros iv d r L; [reflexivity|]. cbn [cbc_encrypt].
    replace (firstn 16 (d ++ r)) with (firstn 16 d) by (rewrite firstn_app; replace (16 - length d)%nat with 0%nat by lia; rewrite firstn_O, app_nil_r; reflexivity).
    replace (skipn 16 (d ++ r)) with (skipn 16 d ++ r) by (rewrite skipn_app; replace (16 - length d)%nat with 0%nat by lia; reflexivity).
    rewrite IH by (rewrite skipn_length; lia). reflexivity.
  Qed.
  Lemma cbc_round : forall n iv data, is_block iv -> bytes data -> length data = (16 * n)%nat -> cbc_decrypt D n iv (fst (cbc_encrypt E n iv data)) = data.
  Proof.
    induction n as [|n IH]; intros iv data I Bd L; [destruct data; [reflexivity|cbn [length] in L; lia]|].
    cbn [cbc_encrypt]. set (x := xor_bytes iv (firstn 16 data)).
    assert (Fb : is_block (firstn 16 data)) by (split; [rewrite firstn_length; lia|apply bytes_firstn'; exact Bd]).
    assert (Xb : is_block x) by (apply xor_block; assumption). destruct (B x Xb) as (Eb & DE).
    specialize (IH (E x) (skipn 16 data) Eb (bytes_skipn' 16 data Bd) ltac:(rewrite skipn_length; lia)).
    destruct (cbc_encrypt E n (E x) (skipn 16 data)) as (r & iv'). cbn [fst] in *. cbn [cbc_decrypt].
    replace (firstn 16 (E x ++ r)) with (E x) by (rewrite firstn_app; destruct Eb as (L1 & _); rewrite L1, firstn_all2 by lia; rewrite Nat.sub_diag, firstn_O, app_nil_r; reflexivity).
    replace (skipn 16 (E x ++ r)) with r by (rewrite skipn_app; destruct Eb as (L1 & _); rewrite L1, skipn_all2 by lia; rewrite Nat.sub_diag; reflexivity).
    rewrite IH, DE. unfold x. rewrite xor_twice by (destruct I as (-> & _); destruct Fb as (-> & _); reflexivity). apply firstn_skipn.
  Qed.
End C.

Lemma unpad_pad : forall l n, 1 <= n <= 16 -> unpad (l ++ repeat n (Z.to_nat n)) = Some l.
Proof.
  intros l n H. unfold unpad.
  assert (La : last (l ++ repeat n (Z.to_nat n)) 0 = n).
  { replace (Z.to_nat n) with (S (Z.to_nat n - 1)) by lia. cbn [repeat]. rewrite repeat_cons, app_assoc. apply last_last. }
  rewrite La. rewrite app_length, repeat_length. replace (length l + Z.to_nat n - Z.to_nat n)%nat with (length l) by lia.
  rewrite skipn_app, skipn_all, Nat.sub_diag, firstn_app, firstn_all, Nat.sub_diag, firstn_O, app_nil_r. cbn [skipn app].
  replace (forallb (fun x => x =? n) (repeat n (Z.to_nat n))) with true; [replace ((1 <=? n) && (n <=? 16)) with true by lia; reflexivity|].
  symmetry. apply forallb_forall. intros x Hx. apply repeat_spec in Hx. lia.
Qed.
Lemma iv_be : forall seq, 0 <= seq < 2 ^ 31 -> iv_of seq = be_bytes 16 seq.
Proof.
  intros s H. unfold iv_of. cbn [be_bytes app repeat].
  change 255 with (Z.ones 8). rewrite !Z.land_ones by lia. rewrite !Z.shiftr_div_pow2 by lia. rewrite !Z.div_div by lia.
  change (2 ^ 8) with 256. change (2 ^ 16) with 65536. change (2 ^ 24) with 16777216. cbn [Z.mul Pos.mul Pos.add Pos.succ].
  assert (K : s / 4294967296 = 0) by lia.
  repeat (apply (f_equal2 cons); [try lia; symmetry|]); try reflexivity;
    match goal with |- (s / ?k) mod 256 = 0 => replace (s / k) with 0 by (symmetry; apply Z.div_small; lia); reflexivity end.
Qed.
Lemma iv_block : forall seq, is_block (iv_of seq).
Proof.
  intros s. split; [reflexivity|]. unfold iv_of. apply bytes_app. split; [repeat (apply bytes_cons; split; [unfold is_byte; lia|]); constructor|].
  change 255 with (Z.ones 8). rewrite !Z.land_ones by lia. repeat (apply bytes_cons; split; [unfold is_byte; apply Z.mod_pos_bound; lia|]); constructor.
Qed.
Lemma store_end : forall dest a b, (length a + length b <= length dest)%nat ->
  store (store dest 0 a) (zlen a) b = (a ++ b) ++ skipn (length a + length b) dest.
Proof.
  intros dest a b L. unfold store, zlen. rewrite Nat2Z.id. cbn [Z.to_nat firstn app].
  change (0 + length a)%nat with (length a). rewrite firstn_app, firstn_all, Nat.sub_diag, firstn_O, app_nil_r.
  rewrite <- app_assoc. f_equal. f_equal. rewrite skipn_app. rewrite (skipn_all2 a) by lia. cbn [app]. replace (length a + length b - length a)%nat with (length b) by lia.
  rewrite skipn_skipn. f_equal. lia.
Qed.
