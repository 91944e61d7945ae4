From Verif Require Import Util Str_model.
From Coq Require Import Arith.
Local Open Scope Z_scope.

Lemma is_prefix_spec p s : is_prefix p s = true <-> exists r, s = p ++ r.
Proof.
  revert s; induction p as [|x p IH]; intros s; cbn [is_prefix].
  - split; [intros _; exists s; reflexivity|reflexivity].
  - destruct s as [|y s]; [split; [discriminate|intros [r H]; discriminate]|].
    rewrite andb_true_iff, IH, Z.eqb_eq. split.
    + intros [-> [r ->]]. exists r. reflexivity.
    + intros [r [= -> ->]]. split; [reflexivity|exists r; reflexivity].
Qed.

Lemma occurs_prefix p s : is_prefix p s = true <-> occurs p s 0.
Proof.
  rewrite is_prefix_spec. split.
  - intros [r ->]. exists [], r. auto.
  - intros (a & b & -> & H). destruct a; [|discriminate]. exists b. reflexivity.
Qed.
Lemma occurs_S p x s i : occurs p (x :: s) (S i) <-> occurs p s i.
Proof.
  split.
  - intros (a & b & E & H). destruct a as [|y a]; [discriminate|]. injection E as -> ->. exists a, b. cbn in H. auto.
  - intros (a & b & -> & H). exists (x :: a), b. cbn. auto.
Qed.
Lemma strstr_spec s p : match strstr s p with
  | Some n => occurs p s n /\ forall i, (i < n)%nat -> ~ occurs p s i
  | None => forall i, ~ occurs p s i end.
Proof.
  induction s as [|x s IH]; cbn [strstr].
  - destruct (is_prefix p []) eqn:E.
    + split; [apply occurs_prefix; exact E|lia].
    + intros i (a & b & H & _). destruct a; [|discriminate]. cbn in H. destruct p; [cbn in E; discriminate|discriminate].
  - destruct (is_prefix p (x :: s)) eqn:E.
    + split; [apply occurs_prefix; exact E|lia].
    + assert (N0 : ~ occurs p (x :: s) 0) by (rewrite <- occurs_prefix; congruence).
      destruct (strstr s p) as [n|].
      * destruct IH as [A B]. split; [apply occurs_S, A|]. intros [|i] Hi; [exact N0|]. rewrite occurs_S. apply B. lia.
      * intros [|i]; [exact N0|]. rewrite occurs_S. apply IH.
Qed.
Lemma strstr_decomp s p n : strstr s p = Some n -> s = firstn n s ++ p ++ skipn (n + length p) s.
Proof.
  intros H. pose proof (strstr_spec s p) as HS. rewrite H in HS. destruct HS as [(a & b & -> & <-) _].
  rewrite firstn_app, Nat.sub_diag, firstn_all. cbn [firstn]. rewrite app_nil_r. f_equal.
  rewrite app_assoc. rewrite skipn_app, skipn_all2 by (rewrite app_length; lia).
  rewrite app_length. replace (length a + length p - (length a + length p))%nat with 0%nat by lia. reflexivity.
Qed.
Lemma strstr_le s p n : strstr s p = Some n -> (n + length p <= length s)%nat.
Proof.
  intros H. pose proof (strstr_spec s p) as HS. rewrite H in HS. destruct HS as [(a & b & -> & <-) _]. rewrite !app_length. lia.
Qed.

(** split *)
Lemma split_loop_ok fuel : forall s sep, sep <> [] -> (length s < fuel)%nat ->
  exists ts, split_loop fuel s sep = Some ts /\ ts <> [] /\ join sep ts = s /\
   (forall t i, In t ts -> ~ occurs sep t i).
Proof.
  induction fuel as [|f IH]; intros s sep Hs Hl; [lia|]. cbn [split_loop].
  pose proof (strstr_spec s sep) as HS. destruct (strstr s sep) as [n|] eqn:E.
  - pose proof (strstr_le _ _ _ E) as HL. pose proof (strstr_decomp _ _ _ E) as HD.
    assert (0 < length sep)%nat by (destruct sep; [congruence|cbn; lia]).
    destruct (IH (skipn (n + length sep) s) sep Hs) as (ts & -> & Hne & HJ & HT); [rewrite skipn_length; lia|].
    eexists. split; [reflexivity|]. split; [discriminate|]. split.
    + cbn [join]. transitivity (firstn n s ++ sep ++ skipn (n + length sep) s); [|symmetry; exact HD].
      f_equal. destruct ts as [|t ts]; [congruence|]. cbn [flat_map]. rewrite <- HJ. cbn [join]. rewrite app_assoc. reflexivity.
    + intros t i [<-|Ht]; [|apply HT, Ht]. intros (a & b & Ea & Hi). destruct HS as [_ HS].
      assert (Hn : length (firstn n s) = n) by (rewrite firstn_length; lia).
      apply (HS i).
      * rewrite Ea, !app_length in Hn. lia.
      * exists a, (b ++ sep ++ skipn (n + length sep) s). split; [|exact Hi]. rewrite HD at 1. rewrite Ea. rewrite <- !app_assoc. reflexivity.
  - eexists. split; [reflexivity|]. split; [discriminate|]. split; [cbn; apply app_nil_r|]. intros t i [<-|[]]. apply HS.
Qed.
Lemma split_ok s sep : sep <> [] -> exists ts, split s sep = Some ts /\ ts <> [] /\ join sep ts = s /\
   (forall t i, In t ts -> ~ occurs sep t i).
Proof. intros H. apply split_loop_ok; [exact H|lia]. Qed.

Lemma split_leftmost fuel : forall s sep ts, sep <> [] -> split_loop fuel s sep = Some ts -> leftmost sep ts.
Proof.
  induction fuel as [|f IH]; intros s sep ts Hs H; [discriminate|]. cbn [split_loop] in H.
  pose proof (strstr_spec s sep) as HS. destruct (strstr s sep) as [n|] eqn:E; [|injection H as <-; exact I].
  destruct (split_loop f (skipn (n + length sep) s) sep) as [l|] eqn:EL; [|discriminate]. injection H as <-.
  pose proof (IH _ _ _ Hs EL) as HI. destruct l as [|t l]; [exact I|].
  pose proof (strstr_le _ _ _ E) as HL. pose proof (strstr_decomp _ _ _ E) as HD.
  assert (HJ : join sep (firstn n s :: t :: l) = s).
  { assert (Hx : forall fuel s ts, split_loop fuel s sep = Some ts -> join sep ts = s).
    { clear - Hs. induction fuel as [|f IH]; intros s ts H; [discriminate|]. cbn [split_loop] in H.
      destruct (strstr s sep) as [n|] eqn:E; [|injection H as <-; cbn; apply app_nil_r].
      destruct (split_loop f (skipn (n + length sep) s) sep) as [l|] eqn:EL; [|discriminate]. injection H as <-.
      pose proof (strstr_decomp _ _ _ E) as HD. specialize (IH _ _ EL).
      destruct l as [|t l].
      - destruct f; [discriminate|]. cbn [split_loop] in EL. destruct (strstr (skipn (n + length sep) s) sep); [destruct (split_loop f _ sep)|]; discriminate.
      - cbn [join flat_map] in *. transitivity (firstn n s ++ sep ++ skipn (n + length sep) s); [|symmetry; exact HD].
        rewrite <- IH, <- app_assoc. reflexivity. }
    apply (Hx (S f)). cbn [split_loop]. rewrite E, EL. reflexivity. }
  split; [|exact HI]. intros i Hi. rewrite HJ. apply HS. rewrite firstn_length in Hi. lia.
Qed.

Lemma split_empty_sep fuel s : split_loop fuel s [] = None.
Proof.
  revert s; induction fuel as [|f IH]; intros s; [reflexivity|]. cbn [split_loop].
  assert (E : strstr s [] = Some 0%nat) by (destruct s; reflexivity). rewrite E. cbn [Nat.add length skipn]. rewrite IH. reflexivity.
Qed.

(** sub-strings *)
Lemma cstr_nonul s r : nonul s -> cstr (s ++ 0 :: r) = s.
Proof.
  induction s as [|x s IH]; intros H; cbn; [reflexivity|]. inversion H; subst.
  destruct (Z.eqb_spec x 0); [contradiction|]. rewrite IH; auto.
Qed.
Lemma cstr_nonul_all s : nonul s -> cstr s = s.
Proof.
  induction s as [|x s IH]; intros H; cbn; [reflexivity|]. inversion H; subst.
  destruct (Z.eqb_spec x 0); [contradiction|]. rewrite IH; auto.
Qed.
Lemma nonul_firstn n s : nonul s -> nonul (firstn n s).
Proof. revert s; induction n; intros [|x s] H; cbn; try constructor; inversion H; subst; auto. apply IHn; auto. Qed.
Lemma nonul_skipn n s : nonul s -> nonul (skipn n s).
Proof. revert s; induction n; intros [|x s] H; cbn; auto. inversion H; subst. apply IHn; auto. Qed.

Lemma subString_in s b n : nonul s -> (b + n <= S (length s))%nat -> subString s b n = Some (firstn n (skipn b s)).
Proof.
  intros Hs Hb. unfold subString.
  destruct (Nat.leb_spec b (S (length s))); [|lia].
  destruct (Z.ltb_spec (Z.of_nat (S (length s) - b)) (Z.of_nat n)); [lia|].
  destruct (Nat.leb_spec (b + n) (S (length s))); [|lia]. f_equal.
  destruct (Nat.le_gt_cases (b + n) (length s)) as [Hn|Hn].
  - rewrite skipn_app, firstn_app. rewrite skipn_length. replace (n - (length s - b))%nat with 0%nat by lia.
    cbn [firstn]. rewrite app_nil_r. apply cstr_nonul_all, nonul_firstn, nonul_skipn, Hs.
  - destruct (Nat.eq_dec b (S (length s))) as [->|Hne].
    + assert (n = 0)%nat by lia. subst n. reflexivity.
    + rewrite skipn_app. replace (b - length s)%nat with 0%nat by lia. cbn [skipn].
      rewrite firstn_all2 by (rewrite app_length, skipn_length; cbn; lia).
      rewrite cstr_nonul by (apply nonul_skipn, Hs). symmetry. apply firstn_all2. rewrite skipn_length. lia.
Qed.
Lemma subString_over s b n : (0 < b <= S (length s))%nat -> (S (length s) < b + n)%nat -> subString s b n = None.
Proof.
  intros Hb Hn. unfold subString. destruct (Nat.leb_spec b (S (length s))); [|lia].
  destruct (Z.ltb_spec (Z.of_nat (S (length s) - b)) (Z.of_nat n)); [|lia].
  destruct (Nat.leb_spec (b + S (length s)) (S (length s))); [lia|reflexivity].
Qed.
Lemma subString_zero s n : nonul s -> (length s < n)%nat -> subString s 0 n = Some s.
Proof.
  intros Hs Hn. destruct (Nat.eq_dec n (S (length s))) as [->|Hne].
  - rewrite subString_in by (auto; lia). cbn [skipn]. f_equal. apply firstn_all2. lia.
  - unfold subString. cbn [Nat.leb]. rewrite Nat.sub_0_r.
    destruct (Z.ltb_spec (Z.of_nat (S (length s))) (Z.of_nat n)); [|lia].
    cbn [Nat.add]. rewrite Nat.leb_refl. f_equal. cbn [skipn].
    rewrite firstn_all2 by (rewrite app_length; cbn; lia). apply cstr_nonul, Hs.
Qed.

(** hex *)
Definition hex_of (b : Z) : list Z := [hex_digit (b / 16); hex_digit (b mod 16)].
Lemma hex_byte b : is_byte b -> (let ch := if b <? 128 then b else b - 256 in
    [hex_digit (Z.land (Z.shiftr ch 4) 15); hex_digit (Z.land ch 15)]) = hex_of b
   /\ to_type_hex (hex_of b) = Some b /\ nonul (hex_of b).
Proof.
  intros Hb.
  assert (H : (let ch := if b <? 128 then b else b - 256 in
     (hex_digit (Z.land (Z.shiftr ch 4) 15) =? hex_digit (b / 16)) && (hex_digit (Z.land ch 15) =? hex_digit (b mod 16)))
     && (match to_type_hex (hex_of b) with Some x => x =? b | None => false end)
     && forallb (fun x => negb (x =? 0)) (hex_of b) = true).
  { revert b Hb. apply byte_sweep. vm_compute. reflexivity. }
  cbv zeta in H. apply andb_prop in H. destruct H as [H H3]. apply andb_prop in H. destruct H as [H1 H2].
  apply andb_prop in H1. destruct H1 as [H1 H1']. apply Z.eqb_eq in H1, H1'.
  split; [|split].
  - cbv zeta. unfold hex_of. rewrite H1, H1'. reflexivity.
  - destruct (to_type_hex (hex_of b)); [|discriminate]. apply Z.eqb_eq in H2. congruence.
  - apply Forall_forall. rewrite forallb_forall in H3. intros x Hx. specialize (H3 x Hx). apply negb_true_iff, Z.eqb_neq in H3. exact H3.
Qed.

Lemma append_hex_eq s bs : bytes bs -> append_hex_buffer s bs = s ++ flat_map hex_of bs.
Proof.
  intros H. unfold append_hex_buffer. f_equal. induction bs as [|b bs IH]; [reflexivity|].
  apply bytes_cons in H. destruct H as [Hb H]. cbn [flat_map]. rewrite IH by exact H.
  destruct (hex_byte b Hb) as [E _]. cbv zeta in E. rewrite E. reflexivity.
Qed.
Lemma hex_length bs : length (flat_map hex_of bs) = (2 * length bs)%nat.
Proof. induction bs; cbn [flat_map]; [reflexivity|]. rewrite app_length, IHbs. cbn. lia. Qed.
Lemma hex_nonul bs : bytes bs -> nonul (flat_map hex_of bs).
Proof.
  induction bs as [|b bs IH]; intros H; [constructor|]. apply bytes_cons in H. destruct H as [Hb H].
  cbn [flat_map]. apply Forall_app. split; [apply (hex_byte b Hb)|apply IH, H].
Qed.

Lemma extract_at bs : forall pre post, bytes bs -> nonul pre -> nonul post ->
  extract_binary_hex (pre ++ flat_map hex_of bs ++ post) (length bs) (length pre) = Some bs.
Proof.
  induction bs as [|b bs IH]; intros pre post H Hp Hq; [reflexivity|]. pose proof H as Hall.
  apply bytes_cons in H. destruct H as [Hb H].
  cbn [length extract_binary_hex]. rewrite subString_in.
  - replace (firstn 2 (skipn (length pre) (pre ++ flat_map hex_of (b :: bs) ++ post))) with (hex_of b).
    + destruct (hex_byte b Hb) as (_ & -> & Hn).
      cbn [flat_map]. rewrite <- app_assoc. rewrite (app_assoc pre).
      replace (length pre + 2)%nat with (length (pre ++ hex_of b)) by (rewrite app_length; reflexivity).
      rewrite IH; auto; [|apply Forall_app; auto]. rewrite Z.mod_small; [reflexivity|exact Hb].
    + rewrite skipn_app, skipn_all, Nat.sub_diag. reflexivity.
  - apply Forall_app. split; [auto|]. apply Forall_app. split; [apply hex_nonul, Hall|auto].
  - rewrite !app_length, hex_length. cbn [length]. lia.
Qed.
