(** Proofs about Ltc_model. *)
From Coq Require Import ZifyBool ZifyNat.
From Verif Require Import Util RangeMap_model SampleTab_model SampleTab_proofs TimeTab_model TimeTab_proofs TimeTab_proofs2 TimeTab_proofs3 TimeTab_proofs4 Ltc_model.
Local Open Scope Z_scope.
Local Ltac Zify.zify_post_hook ::= Z.div_mod_to_equations.

(** ** Records *)
Lemma le_back : forall n z, 0 <= z < 256 ^ Z.of_nat n -> get_le (put_le n z) = z.
Proof.
  induction n as [|n IH]; intros z H; [cbn in *; lia|]. rewrite Nat2Z.inj_succ, Z.pow_succ_r in H by lia. cbn [put_le get_le]. rewrite IH; lia.
Qed.
Lemma put_le_length : forall n z, length (put_le n z) = n.
Proof. induction n as [|n IH]; intros z; [reflexivity|]. cbn. rewrite IH. reflexivity. Qed.
Lemma tcode_length : forall c, length (put_tcode c) = 14%nat.
Proof. intros c. unfold put_tcode. rewrite !app_length, !put_le_length. reflexivity. Qed.
Lemma skipn_exact : forall A (a b : list A) n, length a = n -> skipn n (a ++ b) = b.
Proof. intros A a b n <-. rewrite skipn_app, skipn_all, Nat.sub_diag. reflexivity. Qed.
Lemma firstn_exact : forall A (a b : list A) n, length a = n -> firstn n (a ++ b) = a.
Proof. intros A a b n <-. rewrite firstn_app, Nat.sub_diag, firstn_all. apply app_nil_r. Qed.
Lemma read_stored : forall before c after, fields_fit c -> read_tcode (before ++ put_tcode c ++ after) (Z.of_nat (length before)) = Some c.
Proof.
  intros before c after (A & B & C & D). unfold read_tcode. rewrite Nat2Z.id, (skipn_exact _ before _ _ eq_refl), (firstn_exact _ _ after 14 (tcode_length c)), tcode_length. change (14 <? 14)%nat with false. cbv iota.
  unfold put_tcode. rewrite (firstn_exact _ (put_le 2 _) _ 2 (put_le_length _ _)), (skipn_exact _ (put_le 2 _) _ 2 (put_le_length _ _)), (firstn_exact _ (put_le 4 _) _ 4 (put_le_length _ _)).
  replace (skipn 6 (put_le 2 (c_range c) ++ put_le 4 (c_code c) ++ put_le 4 (c_user c) ++ put_le 4 (c_flags c))) with (put_le 4 (c_user c) ++ put_le 4 (c_flags c))
    by (rewrite (app_assoc (put_le 2 _)), (skipn_exact _ _ _ 6); [reflexivity|rewrite app_length, !put_le_length; reflexivity]).
  replace (skipn 10 (put_le 2 (c_range c) ++ put_le 4 (c_code c) ++ put_le 4 (c_user c) ++ put_le 4 (c_flags c))) with (put_le 4 (c_flags c))
    by (rewrite (app_assoc (put_le 2 _)), (app_assoc _ (put_le 4 (c_user c))), (skipn_exact _ _ _ 10); [reflexivity|rewrite !app_length, !put_le_length; reflexivity]).
  rewrite (firstn_exact _ (put_le 4 (c_user c)) _ 4 (put_le_length _ _)). replace (firstn 4 (put_le 4 (c_flags c))) with (put_le 4 (c_flags c)) by (symmetry; apply firstn_all2; rewrite put_le_length; lia).
  rewrite !le_back; try assumption. destruct c; reflexivity.
Qed.

(** ** Looking up *)
Lemma begin_step : forall ds i, Forall (fun d => 0 < d) ds -> (i < length ds)%nat -> begin_of ds (S i) = begin_of ds i + nth i ds 0 /\ 0 < nth i ds 0.
Proof.
  induction ds as [|d ds IH]; intros i F H; [cbn in H; lia|]. pose proof (Forall_inv F) as D. cbv beta in D. destruct i as [|i].
  - unfold begin_of. cbn [firstn fold_right nth]. lia.
  - destruct (IH i (Forall_inv_tail F)) as [A B]; [cbn in H; lia|]. unfold begin_of in *. cbn [nth]. rewrite !(firstn_cons _ d ds). cbn [fold_right]. lia.
Qed.
Lemma begin_mono : forall ds i j, Forall (fun d => 0 < d) ds -> (i <= j)%nat -> (j <= length ds)%nat -> begin_of ds i <= begin_of ds j /\ ((i < j)%nat -> begin_of ds i < begin_of ds j).
Proof.
  intros ds i j F IJ. induction IJ as [|j IJ IH]; intros H; [split; lia|]. destruct (IH ltac:(lia)) as [A _]. destruct (begin_step ds j F ltac:(lia)) as [B C]. lia.
Qed.
Lemma positive : forall rs, Forall (fun r : nat * Z => 0 < snd r < 2 ^ 32) rs -> Forall (fun d => 0 < d) (expand rs).
Proof.
  intros rs F. unfold expand. apply Forall_concat, Forall_map. eapply Forall_impl; [|exact F]. intros [a b] Hb. cbn [fst snd] in *. apply Forall_forall. intros x Hx. apply repeat_spec in Hx. lia.
Qed.
Lemma begin_zsum : forall ds i, begin_of ds i = zsum (firstn i ds). Proof. reflexivity. Qed.
Lemma begin_all : forall ds, begin_of ds (length ds) = zsum ds. Proof. intros. unfold begin_of, zsum. rewrite firstn_all. reflexivity. Qed.
Lemma small_sum : forall rs, Forall (fun r : nat * Z => 0 < snd r < 2 ^ 32) rs -> Z.of_nat (length (expand rs)) < 2 ^ 31 -> zsum (expand rs) < 2 ^ 63.
Proof.
  intros rs F2 B. assert (Fx : Forall (fun x => 0 <= x < 2 ^ 32) (expand rs)). { unfold expand. apply Forall_concat, Forall_map. eapply Forall_impl; [|exact F2]. intros [a b] Hb. cbn [fst snd] in *. apply Forall_forall. intros x Hx. apply repeat_spec in Hx. lia. }
  pose proof (zsum_bound _ Fx). nia.
Qed.
Lemma comp_is : forall ds ord tb k i, Forall (fun d => 0 < d) ds -> zsum ds < 2 ^ 63 -> (i < length ds)%nat -> composition_time (mkT (times_of 0 ds) [] false ord tb k) (Z.of_nat i) = Some (begin_of ds i) /\ 0 <= begin_of ds i < zsum ds.
Proof.
  intros ds ord tb k i F S1 H. destruct (begin_mono ds 0 i F) as [A _]; [lia|lia|]. destruct (begin_mono ds i (length ds) F) as [_ C]; [lia|lia|]. rewrite begin_all in C. specialize (C H). change (begin_of ds 0) with 0 in A.
  split; [|lia]. unfold composition_time, decoding_time. replace (Z.of_nat i <? 0) with false by lia. rewrite Nat2Z.id. cbn [t_times t_offsets]. assert (G : (i < length (times_of 0 ds))%nat) by (rewrite times_of_length; exact H).
  rewrite (nth_error_nth' _ (0, 0) G), times_of_nth by exact H. cbn [option_map fst]. replace (nth i [] 0) with 0 by (destruct i; reflexivity). f_equal. rewrite <- begin_zsum, u64_id by (change (2 ^ 63) with 9223372036854775808 in *; change (2 ^ 64) with 18446744073709551616; lia). lia.
Qed.
Lemma of_hns_small : forall ts time, 0 <= of_hns ts time < 2 ^ 63.
Proof. intros. unfold of_hns, u64. change (2 ^ 64) with 18446744073709551616. change (2 ^ 63) with 9223372036854775808. pose proof (Z.mod_pos_bound (time * ts) 18446744073709551616 ltac:(lia)). lia. Qed.
Lemma look : forall rs rest ts ord k, Forall (fun r => 0 < fst r)%nat rs -> Forall (fun r => 0 < snd r < 2 ^ 32) rs -> rs <> [] -> Z.of_nat (length (expand rs)) < 2 ^ 31 ->
  exists tb, parse_stts (0 :: Z.of_nat (length rs) :: enc2 rs ++ rest) = Some (times_of 0 (expand rs), tb, rest)
  /\ forall time, exists s, composition_sample_hns ts (mkT (times_of 0 (expand rs)) [] false ord tb k) time = Some (Z.of_nat s) /\ looked_up (expand rs) (of_hns ts time) s.
Proof.
  intros rs rest ts ord k F1 F2 N B. destruct (any_stts rs rest [] false ord k F1 F2 N B) as (times & tb & E1 & E2 & E3). subst times. exists tb. split; [exact E1|]. intros time. pose proof (of_hns_small ts time) as OB. set (x := of_hns ts time) in *.
  pose proof (positive rs F2) as P. pose proof (small_sum rs F2 B) as SS. set (ds := expand rs) in *. pose proof (fun i => times_of_nth ds 0 i (0, 0)) as TN. assert (TL : length (times_of 0 ds) = length ds) by apply times_of_length.
  destruct (E3 x OB) as [IN OUT]. unfold composition_sample_hns. fold x. unfold composition_sample. cbn [t_has_ctts t_times]. rewrite TL.
  destruct (Z_lt_le_dec x (zsum ds)) as [LT|GE].
  - destruct (IN LT) as (i & G1 & G2 & G3). rewrite TL in G2. rewrite G1. rewrite (TN i G2) in G3. cbn [fst snd] in G3. rewrite Z.add_0_l, <- begin_zsum in G3. destruct (begin_step ds i P G2) as [ST _].
    assert (BEF : forall j, (j < i)%nat -> begin_of ds j < x) by (intros j J; destruct (begin_mono ds j i P) as [_ M]; [lia|lia|]; specialize (M J); lia).
    assert (AFT : forall j, (i < j < length ds)%nat -> x < begin_of ds j) by (intros j J; destruct (begin_mono ds (S i) j P) as [M _]; [lia|lia|]; lia).
    destruct (Nat.eq_dec i 0) as [->|NI].
    + exists 0%nat. split; [reflexivity|]. split; [exact G2|]. split; [intros j J; lia|]. left. split; [reflexivity|]. intros j J. apply AFT. lia.
    + replace (Z.of_nat i =? 0) with false by lia. replace (Z.of_nat (length ds) <=? Z.of_nat i) with false by lia. destruct (comp_is ds ord tb k i P SS G2) as [CI _]. rewrite CI. destruct (Z.ltb_spec (begin_of ds i) x) as [Q|Q].
      * destruct (Z.leb_spec (Z.of_nat (length ds)) (Z.of_nat i + 1)) as [L|L].
        -- exists i. split; [f_equal; lia|]. split; [exact G2|]. split; [exact BEF|]. right. split; [lia|]. split; [destruct (begin_mono ds 1 i P) as [M _]; lia|]. right. lia.
        -- exists (S i). split; [f_equal; lia|]. split; [lia|]. split; [intros j J; destruct (Nat.eq_dec j i) as [->|]; [exact Q|apply BEF; lia]|]. right. split; [lia|]. split; [destruct (begin_mono ds 1 i P) as [M _]; lia|]. left. specialize (AFT (S i) ltac:(lia)). lia.
      * replace (Z.of_nat (length ds) <=? Z.of_nat i) with false by lia. exists i. split; [reflexivity|]. split; [exact G2|]. split; [exact BEF|]. right. split; [lia|]. split; [destruct (begin_mono ds 1 i P) as [M _]; lia|]. left. exact Q.
  - destruct (OUT GE) as (s & G1 & G2). rewrite TL in G2. rewrite G1. assert (NE : (0 < length ds)%nat). { destruct rs as [|[a b] rs']; [congruence|]. pose proof (Forall_inv F1) as A. cbn in A. subst ds. unfold expand. cbn. rewrite app_length, repeat_length. lia. }
    replace (s =? 0) with false by lia. replace (Z.of_nat (length ds) <=? s) with true by lia. exists (length ds - 1)%nat. split; [f_equal; lia|]. split; [lia|].
    assert (BEF : forall j, (j < length ds)%nat -> begin_of ds j < x) by (intros j J; destruct (comp_is ds ord tb k j P SS J) as [_ M]; lia).
    split; [intros j J; apply BEF; lia|]. destruct (Nat.eq_dec (length ds) 1) as [O|O]; [left; split; [lia|intros j J; lia]|right; split; [lia|split; [specialize (BEF 1%nat ltac:(lia)); lia|right; reflexivity]]].
Qed.

(** ** The loop *)
Lemma list_rows : forall ts ds ord tb k so places file codes n x, Forall (fun d => 0 < d) ds -> zsum ds < 2 ^ 63 -> 0 < ts -> 0 <= so -> 10000000 * zsum ds < 2 ^ 64 -> 10000000 * zsum ds / ts + so < 2 ^ 64 -> length codes = length ds -> stored file places codes -> (x + n <= length ds)%nat ->
  list_loop ts (mkT (times_of 0 ds) [] false ord tb k) so places file n (Z.of_nat x) = Returned 0 (map (fun i => mkRow (Z.of_nat i) (10000000 * begin_of ds i / ts + so) (nth i codes (mkTcode 0 0 0 0))) (seq x n)).
Proof.
  intros ts ds ord tb k so places file codes n. induction n as [|n IH]; intros x P SS TS SO B1 B2 LC ST H; [reflexivity|]. cbn [list_loop seq map].
  destruct (comp_is ds ord tb k x P SS ltac:(lia)) as [CI CB]. rewrite CI. replace (Z.of_nat x <? 0) with false by lia. rewrite Nat2Z.id. destruct ST as [FF F2]. assert (LP : length places = length codes) by (clear -F2; induction F2; cbn; congruence).
  assert (NP : exists p c, nth_error places x = Some p /\ nth_error codes x = Some c /\ 0 <= p /\ exists before after, file = before ++ put_tcode c ++ after /\ p = Z.of_nat (length before)).
  { assert (X : (x < length places)%nat) by lia. clear -F2 X. revert x X. induction F2 as [|p c ps cs R F IH]; intros x X; [cbn in X; lia|]. destruct x as [|x]; [exists p, c; cbn; auto|]. apply IH. cbn in X. lia. }
  destruct NP as (p & c & N1 & N2 & P0 & before & after & FE & PE). rewrite N1. cbn [option_map]. assert (FC : fields_fit c) by (rewrite Forall_forall in FF; apply FF; eapply nth_error_In; exact N2).
  rewrite FE, PE, (read_stored before c after FC), <- FE. replace (Z.of_nat x + 1) with (Z.of_nat (S x)) by lia. rewrite IH; try assumption; [|split; assumption|lia]. cbn [add_row]. f_equal. f_equal. f_equal.
  - assert (MB : 10000000 * begin_of ds x / ts <= 10000000 * zsum ds / ts) by (apply Z.div_le_mono; lia). assert (ZB : 0 <= 10000000 * begin_of ds x / ts) by (apply Z.div_pos; lia).
    unfold to_hns. rewrite (u64_id (10000000 * begin_of ds x)) by lia. apply u64_id. lia.
  - symmetry. apply nth_error_nth. exact N2.
Qed.
Lemma list_all : forall rs rest ts ord k so file places codes start end_, Forall (fun r => 0 < fst r)%nat rs -> Forall (fun r => 0 < snd r < 2 ^ 32) rs -> rs <> [] -> Z.of_nat (length (expand rs)) < 2 ^ 31 ->
  0 < ts -> 0 <= so -> 10000000 * zsum (expand rs) < 2 ^ 64 -> 10000000 * zsum (expand rs) / ts + so < 2 ^ 64 -> length codes = length (expand rs) -> stored file places codes -> 0 <= start -> start * ts < 2 ^ 64 -> 0 <= end_ -> end_ * ts < 2 ^ 64 ->
  exists tb, parse_stts (0 :: Z.of_nat (length rs) :: enc2 rs ++ rest) = Some (times_of 0 (expand rs), tb, rest)
  /\ exists s e, looked_up (expand rs) (start * ts / 10000000) s /\ looked_up (expand rs) (end_ * ts / 10000000) e
  /\ list_codes (Some (ts, mkT (times_of 0 (expand rs)) [] false ord tb k, so, places)) file start end_ = Returned 0 (map (fun i => mkRow (Z.of_nat i) (10000000 * begin_of (expand rs) i / ts + so) (nth i codes (mkTcode 0 0 0 0))) (seq s (S e - s))).
Proof.
  intros rs rest ts ord k so file places codes start end_ F1 F2 N B TS SO B1 B2 LC ST S0 S1 E0 E1. destruct (look rs rest ts ord k F1 F2 N B) as (tb & PS & LK). exists tb. split; [exact PS|].
  destruct (LK start) as (s & CS & LS). destruct (LK end_) as (e & CE & LE). exists s, e. unfold of_hns in LS, LE. rewrite u64_id in LS, LE by nia. split; [exact LS|]. split; [exact LE|].
  pose proof (positive rs F2) as P. pose proof (small_sum rs F2 B) as SS. unfold list_codes. cbn [t_times]. rewrite times_of_length, CS, CE. destruct LS as [LS _]. destruct LE as [LE _]. replace (length (expand rs) =? 0)%nat with false by lia.
  destruct (comp_is (expand rs) ord tb k s P SS LS) as [-> _]. destruct (comp_is (expand rs) ord tb k e P SS LE) as [-> _].
  replace (if Z.of_nat s <=? Z.of_nat e then Z.to_nat (Z.of_nat e - Z.of_nat s + 1) else 0%nat) with (S e - s)%nat by (destruct (Z.leb_spec (Z.of_nat s) (Z.of_nat e)); lia).
  destruct (le_lt_dec s e); [apply list_rows; try assumption; lia|]. replace (S e - s)%nat with 0%nat by lia. reflexivity.
Qed.
