(** Lemmas about TimeTab_model: searches by time, key frames. *)
From Coq Require Import ZifyNat Permutation Sorted.
From Verif Require Import Util RangeMap_model RangeMap_proofs SampleTab_model SampleTab_proofs TimeTab_model TimeTab_proofs TimeTab_proofs2.
Local Open Scope Z_scope.

(** ** By decoding time *)
Lemma tabd_length : forall rs a b, length (tabd a b rs) = length rs.
Proof. induction rs as [|[n c] rs IH]; intros; cbn [tabd length]; [reflexivity|rewrite IH; reflexivity]. Qed.
Lemma tabd_nth : forall rs a b i d, (i < length rs)%nat -> nth i (tabd a b rs) d = (b + zsum (expand (firstn (S i) rs)), mkD (a + Z.of_nat (length (expand (firstn i rs)))) (b + zsum (expand (firstn i rs))) (snd (nth i rs (0%nat, 0)))).
Proof.
  induction rs as [|[n c] rs IH]; intros a b i d H; [cbn in H; lia|]. destruct i as [|i].
  - cbn [tabd nth firstn snd]. rewrite expand_cons, zsum_app, zsum_repeat. cbn. f_equal; [lia|]. f_equal; lia.
  - cbn [tabd nth]. cbn [length] in H. rewrite IH by lia. change (firstn (S (S i)) ((n, c) :: rs)) with ((n, c) :: firstn (S i) rs). change (firstn (S i) ((n, c) :: rs)) with ((n, c) :: firstn i rs).
    rewrite !expand_cons, !zsum_app, zsum_repeat, app_length, repeat_length. f_equal; [lia|]. f_equal; lia.
Qed.
Lemma tabd_increasing : forall rs a b, Forall (fun r => 0 < fst r)%nat rs -> Forall (fun r => 0 < snd r) rs -> increasing d0 (tabd a b rs).
Proof.
  intros rs a b F1 F2 i j H. rewrite tabd_length in H. unfold key. rewrite !tabd_nth by lia. cbn [fst].
  replace (S j) with (S i + (j - i))%nat by lia. rewrite firstn_add. rewrite expand_app, zsum_app.
  destruct (pos_expand (firstn (j - i) (skipn (S i) rs))) as [_ P]; [apply Forall_firstn', Forall_skipn'; assumption..|].
  assert (N : firstn (j - i) (skipn (S i) rs) <> []). { intros Q. apply (f_equal (@length (nat * Z))) in Q. rewrite firstn_length, skipn_length in Q. cbn [length] in Q. lia. }
  specialize (P N). lia.
Qed.
Lemma time_lookup : forall rs t time, Forall (fun r => 0 < fst r)%nat rs -> Forall (fun r => 0 < snd r) rs -> rs <> [] -> Z.of_nat (length (expand rs)) < 2 ^ 32 -> t_table t = tabd 0 0 rs -> 0 <= time < 2 ^ 63 ->
  (time < zsum (expand rs) -> exists i, decoding_sample t time = Some (Z.of_nat i) /\ (i < length (expand rs))%nat /\ zsum (firstn i (expand rs)) <= time < zsum (firstn i (expand rs)) + nth i (expand rs) 0)
  /\ (zsum (expand rs) <= time -> exists s, decoding_sample t time = Some s /\ Z.of_nat (length (expand rs)) <= s).
Proof.
  intros rs t time F1 F2 N B Et Ht. unfold decoding_sample. rewrite Et. assert (0 < length rs)%nat by (destruct rs; [congruence|cbn; lia]).
  destruct (rm_get_ok d0 (tabd 0 0 rs) time (tabd_increasing rs 0 0 F1 F2)) as (ret & i & E & Hi & C & C1 & C2); [destruct rs as [|[n c] rs]; [congruence|discriminate]|].
  rewrite E. rewrite tabd_length in Hi, C, C2.
  assert (K : forall j, (j < length rs)%nat -> key d0 (tabd 0 0 rs) j = zsum (expand (firstn (S j) rs))) by (intros j Hj; unfold key; rewrite tabd_nth by lia; reflexivity).
  assert (Kl : key d0 (tabd 0 0 rs) (length rs - 1) = zsum (expand rs)) by (rewrite K by lia; replace (S (length rs - 1)) with (length rs) by lia; rewrite firstn_all; reflexivity).
  rewrite Kl in C2.
  destruct (nth_split_runs rs i Hi) as (n & c & En & Es). pose proof (firstn_S_runs rs i n c Hi En) as Ef.
  unfold val. rewrite tabd_nth by lia. cbn [snd d_duration d_samples d_delta]. rewrite En. cbn [snd]. rewrite !Z.add_0_l.
  pose proof F1 as F1'. rewrite Es in F1'. apply Forall_app in F1'. destruct F1' as [F1a F1b]. pose proof (Forall_inv F1b) as f1. cbn [fst] in f1.
  pose proof F2 as F2'. rewrite Es in F2'. apply Forall_app in F2'. destruct F2' as [F2a F2b]. pose proof (Forall_inv F2b) as f2. cbn [snd] in f2.
  rewrite (proj2 (Z.eqb_neq c 0)) by lia. destruct (pos_expand _ F1a F2a) as [Q0 _].
  assert (X : expand rs = expand (firstn i rs) ++ repeat c n ++ expand (skipn (S i) rs)). { rewrite Es at 1. rewrite expand_app, expand_cons. reflexivity. }
  assert (XS : zsum (expand (firstn (S i) rs)) = zsum (expand (firstn i rs)) + Z.of_nat n * c) by (rewrite Ef, expand_app, zsum_app; change (expand [(n, c)]) with (repeat c n ++ []); rewrite app_nil_r, zsum_repeat; reflexivity).
  assert (Lq : (length (expand (firstn i rs)) + n <= length (expand rs))%nat) by (rewrite X, !app_length, repeat_length; lia).
  assert (H1 : zsum (expand (firstn i rs)) <= time).
  { destruct C as [(_ & -> & C)|(_ & C3 & C4)].
    - rewrite Kl in C. replace (length rs - 1 + 1)%nat with (length rs) in * by lia. assert (zsum (expand (firstn (length rs - 1) rs)) <= zsum (expand rs)); [|lia]. rewrite X, zsum_app, zsum_app.
      destruct (pos_expand _ (Forall_inv_tail F1b) (Forall_inv_tail F2b)) as [Q1 _]. rewrite zsum_repeat. nia.
    - destruct i as [|i]; [cbn; lia|]. specialize (C4 i ltac:(lia)). rewrite K in C4 by lia. lia. }
  set (q := time - zsum (expand (firstn i rs))) in *. rewrite (u64_id q) by lia.
  assert (D : q = c * (q / c) + q mod c) by (apply Z.div_mod; lia). pose proof (Z.mod_pos_bound q c f2) as M. assert (0 <= q / c) by (apply Z.div_pos; lia). assert (q / c <= q) by (apply Z.div_le_upper_bound; nia).
  split.
  - intros Hlt. assert (R1 : ret <> 1) by (intros ->; destruct C2 as [C2 _]; specialize (C2 eq_refl); lia).
    destruct C as [[C _]|(_ & C3 & C4)]; [congruence|]. rewrite K in C3 by lia. rewrite XS in C3. assert (q <= Z.of_nat n * c) by lia.
    assert (q / c <= Z.of_nat n). { assert (q / c < Z.of_nat n + 1) by (apply Z.div_lt_upper_bound; nia). lia. }
    exists (length (expand (firstn i rs)) + Z.to_nat (q / c))%nat. split; [rewrite u64_id by lia; f_equal; lia|].
    destruct (Z.eq_dec (q / c) (Z.of_nat n)) as [Eq|Nq].
    + assert (q mod c = 0) by nia. assert (q = Z.of_nat n * c) by nia.
      destruct (skipn (S i) rs) as [|[n' c'] rs'] eqn:Esk.
      { exfalso. change (expand []) with (@nil Z) in X. rewrite app_nil_r in X. rewrite X, zsum_app, zsum_repeat in Hlt. lia. }
      pose proof (Forall_inv (Forall_inv_tail F1b)) as f1'. pose proof (Forall_inv (Forall_inv_tail F2b)) as f2'. cbn [fst snd] in f1', f2'.
      destruct n' as [|n']; [lia|]. rewrite Eq, Nat2Z.id. rewrite X, expand_cons. cbn [repeat]. split; [rewrite !app_length, repeat_length; cbn [app length]; lia|].
      replace (length (expand (firstn i rs)) + n)%nat with (length (expand (firstn i rs) ++ repeat c n)) by (rewrite app_length, repeat_length; reflexivity).
      rewrite app_assoc. rewrite firstn_app, firstn_all, Nat.sub_diag, firstn_O, app_nil_r, zsum_app, zsum_repeat. rewrite app_nth2, Nat.sub_diag by lia. cbn [app nth]. lia.
    + split; [lia|]. rewrite X. rewrite firstn_app. rewrite firstn_all2 by lia. rewrite app_nth2 by lia. replace (length (expand (firstn i rs)) + Z.to_nat (q / c) - length (expand (firstn i rs)))%nat with (Z.to_nat (q / c)) by lia.
      rewrite firstn_app, repeat_length. replace (Z.to_nat (q / c) - n)%nat with 0%nat by lia. rewrite firstn_O, app_nil_r, zsum_app, zsum_firstn_repeat by lia. rewrite Z2Nat.id by lia.
      rewrite app_nth1 by (rewrite repeat_length; lia). rewrite (nth_indep _ 0 c) by (rewrite repeat_length; lia). rewrite nth_repeat. nia.
  - intros Hge. eexists. split; [reflexivity|].
    assert (Ei : i = (length rs - 1)%nat). { destruct C as [(_ & -> & _)|(_ & C3 & C4)]; [reflexivity|]. destruct (Nat.eq_dec i (length rs - 1)); [assumption|]. exfalso.
      assert (zsum (expand (firstn (S i) rs)) < zsum (expand rs)); [|rewrite K in C3 by lia; lia]. rewrite <- Kl, <- K by lia. apply (tabd_increasing rs 0 0 F1 F2). rewrite tabd_length. lia. }
    assert (Sk : skipn (S i) rs = []) by (apply skipn_all2; lia). rewrite Sk in X. change (expand []) with (@nil Z) in X. rewrite app_nil_r in X.
    assert (Lx : length (expand rs) = (length (expand (firstn i rs)) + n)%nat) by (rewrite X, app_length, repeat_length; reflexivity). assert (zsum (expand rs) = zsum (expand (firstn i rs)) + Z.of_nat n * c) by (rewrite X, zsum_app, zsum_repeat; reflexivity).
    assert (Z.of_nat n <= q / c) by (apply Z.div_le_lower_bound; nia). rewrite u64_id by lia. lia.
Qed.
Lemma any_stts : forall rs rest o hc ord k, Forall (fun r => 0 < fst r)%nat rs -> Forall (fun r => 0 < snd r < 2 ^ 32) rs -> rs <> [] -> Z.of_nat (length (expand rs)) < 2 ^ 31 ->
  exists times tb, parse_stts (0 :: Z.of_nat (length rs) :: enc2 rs ++ rest) = Some (times, tb, rest) /\ times = times_of 0 (expand rs)
  /\ forall time, 0 <= time < 2 ^ 63 -> (time < zsum (expand rs) -> exists i, decoding_sample (mkT times o hc ord tb k) time = Some (Z.of_nat i) /\ (i < length times)%nat /\ fst (nth i times (0, 0)) <= time < fst (nth i times (0, 0)) + snd (nth i times (0, 0)))
    /\ (zsum (expand rs) <= time -> exists s, decoding_sample (mkT times o hc ord tb k) time = Some s /\ Z.of_nat (length times) <= s).
Proof.
  intros rs rest o hc ord k F1 F2 N B.
  assert (Fx : Forall (fun x => 0 <= x < 2 ^ 32) (expand rs)). { unfold expand. apply Forall_concat, Forall_map. eapply Forall_impl; [|exact F2]. intros [a b] Hb. cbn [fst snd] in *. apply Forall_forall. intros x Hx. apply repeat_spec in Hx. lia. }
  pose proof (zsum_bound _ Fx) as Zb. assert (F2' : Forall (fun r => 0 < snd r) rs) by (eapply Forall_impl; [|exact F2]; intros a Ha; cbv beta in Ha; lia).
  exists (times_of 0 (expand rs)), (tabd 0 0 rs). split; [apply parse_stts_spec; [eapply Forall_impl; [|exact F2]; intros a Ha; cbv beta in Ha; lia|lia|lia]|]. split; [reflexivity|].
  intros time Ht. rewrite times_of_length. destruct (time_lookup rs (mkT (times_of 0 (expand rs)) o hc ord (tabd 0 0 rs) k) time F1 F2' N ltac:(lia) eq_refl Ht) as [A1 A2]. split; [|exact A2].
  intros H. destruct (A1 H) as (i & E1 & E2 & E3). exists i. split; [exact E1|]. split; [exact E2|]. rewrite times_of_nth by exact E2. cbn [fst snd]. lia.
Qed.
(** ** Units of 100 ns *)
Lemma there_and_back : forall ts d, 0 < ts <= 10000000 -> 0 <= d -> 10000000 * d < 2 ^ 64 -> of_hns ts (to_hns ts d) = if (10000000 * d) mod ts =? 0 then d else d - 1.
Proof.
  intros ts d H Hd B. unfold of_hns, to_hns. rewrite (u64_id (10000000 * d)) by lia. pose proof (Z.div_mod (10000000 * d) ts ltac:(lia)) as D. pose proof (Z.mod_pos_bound (10000000 * d) ts ltac:(lia)) as M.
  set (q := 10000000 * d / ts) in *. set (r := (10000000 * d) mod ts) in *. assert (0 <= q) by (apply Z.div_pos; lia). assert (q * ts = 10000000 * d - r) by lia. rewrite u64_id by lia.
  replace (q * ts) with (10000000 * d - r) by lia. destruct (Z.eqb_spec r 0) as [->|Nr].
  - rewrite Z.sub_0_r, Z.mul_comm. apply Z.div_mul. lia.
  - symmetry. apply Z.div_unique with (10000000 - r); lia.
Qed.
Lemma seek_reported : forall rs ts rest o hc ord k, Forall (fun r => 0 < fst r)%nat rs -> Forall (fun r => 0 < snd r < 2 ^ 32) rs -> rs <> [] -> Z.of_nat (length (expand rs)) < 2 ^ 31 -> 0 < ts <= 10000000 -> 10000000 * zsum (expand rs) < 2 ^ 63 ->
  exists times tb, parse_stts (0 :: Z.of_nat (length rs) :: enc2 rs ++ rest) = Some (times, tb, rest) /\ forall i, (i < length times)%nat ->
    exists time, decoding_time_hns ts (mkT times o hc ord tb k) (Z.of_nat i) = Some time
      /\ decoding_sample_hns ts (mkT times o hc ord tb k) time = Some (if (10000000 * fst (nth i times (0, 0))) mod ts =? 0 then Z.of_nat i else Z.of_nat i - 1).
Proof.
  intros rs ts rest o hc ord k F1 F2 N B Hts Bt. destruct (any_stts rs rest o hc ord k F1 F2 N B) as (times & tb & E1 & E2 & E3). exists times, tb. split; [exact E1|]. intros i Hi.
  assert (Fx : Forall (fun x => 0 < x < 2 ^ 32) (expand rs)). { unfold expand. apply Forall_concat, Forall_map. eapply Forall_impl; [|exact F2]. intros [a b] Hb. cbn [fst snd] in *. apply Forall_forall. intros x Hx. apply repeat_spec in Hx. lia. }
  assert (Hlen : length times = length (expand rs)) by (rewrite E2; apply times_of_length).
  assert (Tn : forall j, (j < length times)%nat -> fst (nth j times (0, 0)) = zsum (firstn j (expand rs)) /\ snd (nth j times (0, 0)) = nth j (expand rs) 0) by (intros j Hj; rewrite E2, times_of_nth by lia; cbn [fst snd]; split; [lia|reflexivity]).
  assert (Snext : forall j, (j < length (expand rs))%nat -> zsum (firstn (S j) (expand rs)) = zsum (firstn j (expand rs)) + nth j (expand rs) 0).
  { generalize (expand rs). clear. intros l. induction l as [|x l IH]; intros j Hj; [cbn in Hj; lia|]. destruct j as [|j]; [cbn; lia|]. cbn [length] in Hj. change (firstn (S (S j)) (x :: l)) with (x :: firstn (S j) l). change (firstn (S j) (x :: l)) with (x :: firstn j l). rewrite !zsum_cons, IH by lia. cbn [nth]. lia. }
  assert (Pn : forall j, (j < length (expand rs))%nat -> 0 < nth j (expand rs) 0) by (intros j Hj; rewrite Forall_forall in Fx; apply Fx, nth_In; exact Hj).
  assert (Mono : forall m j, (m + j <= length (expand rs))%nat -> zsum (firstn m (expand rs)) + Z.of_nat j <= zsum (firstn (m + j) (expand rs))).
  { intros m j. induction j as [|j IH]; intros Hj; [rewrite Nat.add_0_r; lia|]. rewrite Nat.add_succ_r, Snext by lia. specialize (IH ltac:(lia)). specialize (Pn (m + j)%nat ltac:(lia)). lia. }
  destruct (Tn i Hi) as [Ti Tj]. set (D := fst (nth i times (0, 0))) in *.
  assert (D0 : 0 <= D) by (pose proof (Mono 0%nat i ltac:(lia)); rewrite Ti; cbn [Nat.add firstn] in *; change (zsum []) with 0 in *; lia).
  assert (D1 : D < zsum (expand rs)). { rewrite Ti. pose proof (Mono i (length (expand rs) - i)%nat ltac:(lia)) as Q. replace (i + (length (expand rs) - i))%nat with (length (expand rs)) in Q by lia. rewrite firstn_all in Q. lia. }
  exists (to_hns ts D). split.
  { unfold decoding_time_hns, decoding_time. rewrite (proj2 (Z.ltb_ge (Z.of_nat i) 0)) by lia. rewrite Nat2Z.id. cbn [t_times]. rewrite (nth_error_nth' times (0, 0) Hi). reflexivity. }
  unfold decoding_sample_hns. rewrite there_and_back by lia.
  assert (Uniq : forall x i' j', (i' < length times)%nat -> (j' < length times)%nat -> fst (nth i' times (0, 0)) <= x < fst (nth i' times (0, 0)) + snd (nth i' times (0, 0)) -> fst (nth j' times (0, 0)) <= x < fst (nth j' times (0, 0)) + snd (nth j' times (0, 0)) -> i' = j').
  { intros x i' j' H1 H2 H3 H4. destruct (Tn i' H1) as [A1 A2]. destruct (Tn j' H2) as [A3 A4]. rewrite A1, A2 in H3. rewrite A3, A4 in H4. rewrite <- Snext in H3 by lia. rewrite <- Snext in H4 by lia.
    destruct (Nat.lt_trichotomy i' j') as [Q|[Q|Q]]; [|exact Q|].
    - pose proof (Mono (S i') (j' - S i')%nat ltac:(lia)) as R. replace (S i' + (j' - S i'))%nat with j' in R by lia. lia.
    - pose proof (Mono (S j') (i' - S j')%nat ltac:(lia)) as R. replace (S j' + (i' - S j'))%nat with i' in R by lia. lia. }
  destruct (Z.eqb_spec ((10000000 * D) mod ts) 0) as [Z0|NZ].
  - destruct (E3 D ltac:(lia)) as [A _]. destruct (A D1) as (i' & G1 & G2 & G3). rewrite G1. f_equal. f_equal. apply (Uniq D i' i G2 Hi G3). fold D. rewrite Tj. specialize (Pn i ltac:(lia)). lia.
  - destruct i as [|i]; [exfalso; apply NZ; assert (D = 0) as -> by (rewrite Ti; reflexivity); apply Z.mod_0_l; lia|].
    destruct (E3 (D - 1)) as [A _]; [|destruct (A ltac:(lia)) as (i' & G1 & G2 & G3)].
    { rewrite Ti. pose proof (Mono 0%nat (S i) ltac:(lia)) as Q. rewrite Nat.add_0_l, firstn_O in Q. change (zsum []) with 0 in Q. rewrite Ti in D1. lia. }
    rewrite G1. f_equal. replace (Z.of_nat (S i) - 1) with (Z.of_nat i) by lia. f_equal. apply (Uniq (D - 1) i' i G2 ltac:(lia) G3). destruct (Tn i ltac:(lia)) as [T1 T2]. rewrite T1, T2, <- Snext, <- Ti by lia. pose proof (Mono i 1%nat ltac:(lia)) as Q. replace (i + 1)%nat with (S i) in Q by lia. lia.
Qed.

(** ** By composition time *)
Lemma lower_bound_spec : forall l time, StronglySorted leT l -> (forall j, (j < lower_bound time l)%nat -> fst (nth j l (0, 0)) < time) /\ (forall j, (lower_bound time l <= j < length l)%nat -> time <= fst (nth j l (0, 0))) /\ (lower_bound time l <= length l)%nat.
Proof.
  induction l as [|x l IH]; intros time Ss; [cbn; split; [intros; lia|split; [intros; lia|lia]]|]. cbn [lower_bound length]. apply StronglySorted_inv in Ss. destruct Ss as [S1 S2]. destruct (Z.ltb_spec (fst x) time) as [H|H].
  - destruct (IH time S1) as (A & B & C). split; [intros [|j] Hj; [exact H|apply A; lia]|]. split; [intros [|j] Hj; [lia|apply B; lia]|lia].
  - split; [intros; lia|]. split; [|lia]. intros [|j] Hj; [exact H|]. cbn [nth]. rewrite Forall_forall in S2. specialize (S2 (nth j l (0, 0)) ltac:(apply nth_In; lia)). unfold leT in S2. lia.
Qed.
Lemma ss_nth : forall l i j, StronglySorted leT l -> (i <= j < length l)%nat -> fst (nth i l (0, 0)) <= fst (nth j l (0, 0)).
Proof.
  intros l i j Ss. revert i j. induction Ss as [|a r S1 IH F]; intros i j H; [cbn in H; lia|]. destruct i as [|i], j as [|j]; try lia; cbn [nth length] in *.
  - rewrite Forall_forall in F. apply (F (nth j r (0, 0))). apply nth_In. lia.
  - apply IH. lia.
Qed.
Lemma composition_lookup : forall t comps time, t_has_ctts t = true -> StronglySorted leT (t_order t) -> Permutation comps (t_order t) -> (forall x, In x comps -> snd x = 0 -> forall y, In y comps -> fst x <= fst y) -> (exists x, In x comps /\ snd x = 0 /\ fst x <= time) ->
  ((exists x, In x comps /\ time <= fst x) -> exists x, composition_sample t time = Some (snd x) /\ In x comps /\ fst x <= time /\ forall y, In y comps -> fst y <= time -> fst y <= fst x)
  /\ ((forall x, In x comps -> fst x < time) -> composition_sample t time = Some 0).
Proof.
  intros t comps time Hc Ss P H0 (z & Z1 & Z2 & Z3). unfold composition_sample. rewrite Hc. destruct (lower_bound_spec (t_order t) time Ss) as (A & B & C). set (i := lower_bound time (t_order t)) in *. set (l := t_order t) in *. split.
  - intros (x & X1 & X2). assert (Hi : (i < length l)%nat). { apply (Permutation_in _ P) in X1. apply (In_nth _ _ (0, 0)) in X1. destruct X1 as (j & J1 & J2). destruct (Nat.lt_ge_cases j i) as [Q|Q]; [specialize (A j Q); rewrite J2 in A; lia|lia]. }
    rewrite (proj2 (Nat.ltb_lt i (length l)) Hi). cbn [andb]. destruct (Nat.ltb_spec 0 i) as [Hp|Hp].
    + destruct (Z.ltb_spec time (fst (nth i l (0, 0)))) as [Q|Q].
      * exists (nth (i - 1) l (0, 0)). split; [reflexivity|]. split; [apply (Permutation_in _ (Permutation_sym P)); apply nth_In; lia|]. split; [specialize (A (i - 1)%nat ltac:(lia)); lia|].
        intros y Y1 Y2. apply (Permutation_in _ P) in Y1. apply (In_nth _ _ (0, 0)) in Y1. destruct Y1 as (j & J1 & J2).
        assert (Hj : (j < i)%nat). { destruct (Nat.lt_ge_cases j i); [assumption|]. exfalso. assert (Hsort : fst (nth i l (0, 0)) <= fst (nth j l (0, 0))); [|rewrite J2 in Hsort; lia].
          apply (ss_nth l i j Ss); lia. }
        rewrite <- J2. apply (ss_nth l j (i - 1) Ss). lia.
      * exists (nth i l (0, 0)). split; [reflexivity|]. split; [apply (Permutation_in _ (Permutation_sym P)); apply nth_In; lia|]. specialize (B i ltac:(lia)). split; [exact Q|]. intros y _ Y. lia.
    + exists z. split; [rewrite Z2; reflexivity|]. split; [exact Z1|]. split; [exact Z3|]. intros y Y1 Y2. specialize (B 0%nat ltac:(lia)).
      apply (Permutation_in _ P) in Z1. apply (In_nth _ _ (0, 0)) in Z1. destruct Z1 as (j & J1 & J2). specialize (H0 z). assert (B' : time <= fst z).
      { rewrite <- J2. destruct (lower_bound_spec l time Ss) as (_ & B' & _). apply B'. fold i. lia. }
      lia.
  - intros H. assert (Hi : i = length l). { destruct (Nat.eq_dec i (length l)) as [|Ne]; [assumption|]. specialize (B i ltac:(lia)). specialize (H (nth i l (0, 0))). assert (In (nth i l (0, 0)) comps) by (apply (Permutation_in _ (Permutation_sym P)); apply nth_In; lia). specialize (H H1). lia. }
    rewrite Hi. rewrite Nat.ltb_irrefl. reflexivity.
Qed.

(** ** Key frames *)
Lemma stss_read_spec : forall ks i prev t, 0 < i -> (forall k r, ks = k :: r -> prev < k) -> StronglySorted Z.lt ks -> Forall (fun k => 0 <= k < 2 ^ 32 - 1) (prev :: ks) ->
  stss_read i prev (map (fun k => k + 1) ks) t = t ++ combine (map (fun k => k - 1) ks ++ [last ks prev + 1]) (prev :: ks).
Proof.
  induction ks as [|k ks IH]; intros i prev t Hi Hp Ss F.
  - cbn [map stss_read app combine last]. unfold rm_add. rewrite u32_id by (pose proof (Forall_inv F) as f; cbv beta in f; lia). reflexivity.
  - pose proof (Forall_inv F) as f0. pose proof (Forall_inv (Forall_inv_tail F)) as f1. cbv beta in f0, f1. cbn [map stss_read]. rewrite (proj2 (Z.ltb_lt 0 i)) by lia. replace (k + 1 - 1) with k by lia. specialize (Hp k ks eq_refl).
    rewrite (u32_id k), (u32_id (k - 1)) by lia. apply StronglySorted_inv in Ss. destruct Ss as [S1 S2].
    rewrite IH; [|lia|intros k' r ->; exact (Forall_inv S2)|exact S1|exact (Forall_inv_tail F)]. unfold rm_add. rewrite <- app_assoc. cbn [app combine map].
    do 3 f_equal. f_equal. f_equal. f_equal. clear. revert k prev. induction ks as [|x ks IH]; intros; [reflexivity|]. cbn [last]. destruct ks; [reflexivity|]. apply (IH k prev).
Qed.
Definition keytab (k0 : Z) (ks : list Z) : table Z := combine (map (fun k => k - 1) ks ++ [last ks k0 + 1]) (k0 :: ks).
Lemma keytab_length : forall k0 ks, length (keytab k0 ks) = S (length ks).
Proof. intros. unfold keytab. rewrite combine_length, app_length, map_length. cbn [length]. lia. Qed.
Lemma keytab_nth : forall ks k0 i d, (i <= length ks)%nat -> nth i (keytab k0 ks) d = (if (i =? length ks)%nat then last ks k0 + 1 else nth i ks 0 - 1, nth i (k0 :: ks) 0).
Proof.
  intros ks k0 i d H. unfold keytab. destruct d as [d1 d2]. rewrite combine_nth by (rewrite app_length, map_length; cbn; lia). f_equal; [|apply nth_indep; cbn; lia].
  destruct (Nat.eqb_spec i (length ks)) as [->|N].
  - rewrite app_nth2 by (rewrite map_length; lia). rewrite map_length, Nat.sub_diag. reflexivity.
  - rewrite app_nth1 by (rewrite map_length; lia). rewrite (nth_indep _ d1 ((fun k => k - 1) 0)) by (rewrite map_length; lia). apply (map_nth (fun k => k - 1)).
Qed.
Lemma zlt_nth : forall l i j, StronglySorted Z.lt l -> (i < j < length l)%nat -> nth i l 0 < nth j l 0.
Proof.
  intros l i j Ss. revert i j. induction Ss as [|a r S1 IH F]; intros i j H; [cbn in H; lia|]. destruct i as [|i], j as [|j]; try lia; cbn [nth length] in *.
  - rewrite Forall_forall in F. apply (F (nth j r 0)). apply nth_In. lia.
  - apply IH. lia.
Qed.
Lemma last_nth : forall (l : list Z) d, last l d = nth (length l - 1) l d.
Proof. induction l as [|x l IH]; intros d; [reflexivity|]. destruct l as [|y l]; [reflexivity|]. change (last (x :: y :: l) d) with (last (y :: l) d). rewrite IH. cbn [length]. replace (S (S (length l)) - 1)%nat with (S (length l)) by lia. cbn [nth]. replace (S (length l) - 1)%nat with (length l) by lia. reflexivity. Qed.
Lemma keytab_last : forall ks k0, last ks k0 = nth (length ks) (k0 :: ks) 0.
Proof. intros [|x ks] k0; [reflexivity|]. rewrite last_nth. cbn [length]. replace (S (length ks) - 1)%nat with (length ks) by lia. change (nth (S (length ks)) (k0 :: x :: ks) 0) with (nth (length ks) (x :: ks) 0). apply nth_indep. cbn. lia. Qed.
Lemma keytab_increasing : forall k0 ks, StronglySorted Z.lt (k0 :: ks) -> increasing 0 (keytab k0 ks).
Proof.
  intros k0 ks Ss i j H. rewrite keytab_length in H. unfold key. rewrite !keytab_nth by lia. cbn [fst]. rewrite (proj2 (Nat.eqb_neq i (length ks))) by lia.
  destruct (Nat.eqb_spec j (length ks)) as [->|N].
  - rewrite keytab_last. change (nth i ks 0) with (nth (S i) (k0 :: ks) 0). destruct (Nat.eq_dec (S i) (length ks)) as [->|]; [lia|]. pose proof (zlt_nth (k0 :: ks) (S i) (length ks) Ss ltac:(cbn [length]; lia)). lia.
  - change (nth i ks 0) with (nth (S i) (k0 :: ks) 0). change (nth j ks 0) with (nth (S j) (k0 :: ks) 0). pose proof (zlt_nth (k0 :: ks) (S i) (S j) Ss ltac:(cbn [length]; lia)). lia.
Qed.
Lemma iframe_at_spec : forall k0 ks s, StronglySorted Z.lt (k0 :: ks) -> exists i, (i <= length ks)%nat /\ iframe_at (keytab k0 ks) s = Some (nth i (k0 :: ks) 0, if (i =? length ks)%nat then last ks k0 + 1 else nth i ks 0 - 1)
  /\ (i = 0%nat \/ nth i (k0 :: ks) 0 <= s) /\ (i = length ks \/ s < nth (S i) (k0 :: ks) 0).
Proof.
  intros k0 ks s Ss. unfold iframe_at. destruct (rm_get_ok 0 (keytab k0 ks) s (keytab_increasing k0 ks Ss)) as (ret & i & E & Hi & C & C1 & C2); [intros Q; apply (f_equal (@length (Z * Z))) in Q; rewrite keytab_length in Q; discriminate|].
  rewrite E. rewrite keytab_length in Hi, C. exists i. split; [lia|]. unfold val, key in *. rewrite !keytab_nth by lia. cbn [fst snd]. split; [reflexivity|].
  destruct C as [(_ & -> & C)|(_ & C3 & C4)].
  - replace (S (length ks) - 1)%nat with (length ks) in * by lia. rewrite keytab_nth in C by lia. cbn [fst] in C. rewrite Nat.eqb_refl, keytab_last in C. split; [right; lia|left; reflexivity].
  - rewrite keytab_nth in C3 by lia. cbn [fst] in C3. split.
    + destruct i as [|i]; [left; reflexivity|right]. specialize (C4 i ltac:(lia)). rewrite keytab_nth in C4 by lia. cbn [fst] in C4. rewrite (proj2 (Nat.eqb_neq i (length ks))) in C4 by lia. cbn [nth]. lia.
    + destruct (Nat.eqb_spec i (length ks)); [left; assumption|right]. cbn [nth]. lia.
Qed.
(** the key frame at or before [s] *)
Lemma iframe_before : forall k0 ks s, StronglySorted Z.lt (k0 :: ks) -> k0 <= s -> exists k lim, iframe_at (keytab k0 ks) s = Some (k, lim) /\ In k (k0 :: ks) /\ k <= s /\ forall k', In k' (k0 :: ks) -> k' <= s -> k' <= k.
Proof.
  intros k0 ks s Ss H. destruct (iframe_at_spec k0 ks s Ss) as (i & Hi & E & A & B). eexists _, _. split; [exact E|]. split; [apply nth_In; cbn [length]; lia|]. split; [destruct A as [->|A]; [exact H|exact A]|].
  intros k' Hk Hle. apply (In_nth _ _ 0) in Hk. destruct Hk as (j & Hj & <-). cbn [length] in Hj. destruct (Nat.lt_trichotomy j i) as [Q|[->|Q]]; [|lia|].
  - pose proof (zlt_nth (k0 :: ks) j i Ss ltac:(cbn [length]; lia)). lia.
  - destruct B as [->|B]; [lia|]. destruct (Nat.eq_dec j (S i)) as [->|]; [lia|]. pose proof (zlt_nth (k0 :: ks) (S i) j Ss ltac:(cbn [length]; lia)). lia.
Qed.
Lemma iframe_iff : forall k0 ks s, StronglySorted Z.lt (k0 :: ks) -> exists i, iframe_at (keytab k0 ks) s = Some i /\ (fst i = s <-> In s (k0 :: ks)).
Proof.
  intros k0 ks s Ss. destruct (Z.le_gt_cases k0 s) as [H|H].
  - destruct (iframe_before k0 ks s Ss H) as (k & lim & E & A & B & C). exists (k, lim). split; [exact E|]. cbn [fst]. split; [intros <-; exact A|]. intros I. specialize (C s I ltac:(lia)). lia.
  - destruct (iframe_at_spec k0 ks s Ss) as (i & Hi & E & A & B). eexists. split; [exact E|]. cbn [fst].
    assert (L : forall x, In x (k0 :: ks) -> k0 <= x). { intros x [<-|Hx]; [lia|]. apply StronglySorted_inv in Ss. destruct Ss as [_ F]. rewrite Forall_forall in F. specialize (F x Hx). lia. }
    split; [intros <-|intros I; specialize (L s I); lia]. specialize (L (nth i (k0 :: ks) 0) ltac:(apply nth_In; cbn; lia)). lia.
Qed.
(** going on to the next *)
Lemma next_after : forall k0 ks s k lim, StronglySorted Z.lt (k0 :: ks) -> Forall (fun k => 0 <= k < 2 ^ 32 - 1) (k0 :: ks) -> k0 <= s -> iframe_at (keytab k0 ks) s = Some (k, lim) ->
  exists k2 lim2, next_iframe (keytab k0 ks) lim = Some (k2, lim2) /\ ((exists k', In k' (k0 :: ks) /\ s < k') -> In k2 (k0 :: ks) /\ s < k2 /\ forall k', In k' (k0 :: ks) -> s < k' -> k2 <= k')
    /\ ((forall k', In k' (k0 :: ks) -> k' <= s) -> k2 = k).
Proof.
  intros k0 ks s k lim Ss F H E0. destruct (iframe_at_spec k0 ks s Ss) as (i & Hi & E & A & B). rewrite E in E0. injection E0 as <- <-.
  assert (Nb : forall j, (j <= length ks)%nat -> 0 <= nth j (k0 :: ks) 0 < 2 ^ 32 - 1) by (intros j Hj; rewrite Forall_forall in F; apply F; apply nth_In; cbn; lia).
  unfold next_iframe. destruct (Nat.eqb_spec i (length ks)) as [->|N].
  - rewrite keytab_last. pose proof (Nb (length ks) ltac:(lia)) as Q. rewrite u64_id by lia. set (kl := nth (length ks) (k0 :: ks) 0) in *.
    destruct (iframe_before k0 ks (kl + 1 + 1) Ss) as (k2 & lim2 & G1 & G2 & G3 & G4).
    { destruct (Nat.eq_dec (length ks) 0) as [Z0|]; [unfold kl; rewrite Z0; cbn; lia|]. pose proof (zlt_nth (k0 :: ks) 0 (length ks) Ss ltac:(cbn [length]; lia)) as R. cbn [nth] in R. fold kl in R. unfold kl in *. destruct ks; cbn [nth length] in *; lia. }
    assert (Max : forall x, In x (k0 :: ks) -> x <= kl). { intros x Hx. apply (In_nth _ _ 0) in Hx. destruct Hx as (j & Hj & <-). cbn [length] in Hj. destruct (Nat.eq_dec j (length ks)) as [->|]; [lia|]. pose proof (zlt_nth (k0 :: ks) j (length ks) Ss ltac:(cbn [length]; lia)). unfold kl. lia. }
    assert (k2 = kl). { specialize (G4 kl ltac:(apply nth_In; cbn; lia) ltac:(lia)). specialize (Max k2 G2). lia. } subst k2.
    exists kl, lim2. split; [exact G1|]. split; [|intros _; reflexivity]. intros (k' & K1 & K2). specialize (Max k' K1).
    assert (i0 : kl <= s). { destruct A as [A|A]; [unfold kl; rewrite A; cbn; exact H|exact A]. } lia.
  - pose proof (Nb (S i) ltac:(lia)) as Q. cbn [nth] in Q. pose proof (Nb i Hi) as Qi. assert (P : nth i (k0 :: ks) 0 < nth i ks 0) by (apply (zlt_nth (k0 :: ks) i (S i) Ss); cbn [length]; lia). rewrite u64_id by lia. replace (nth i ks 0 - 1 + 1) with (nth (S i) (k0 :: ks) 0) by (cbn [nth]; lia).
    destruct (iframe_before k0 ks (nth (S i) (k0 :: ks) 0) Ss) as (k2 & lim2 & G1 & G2 & G3 & G4).
    { pose proof (zlt_nth (k0 :: ks) 0 (S i) Ss ltac:(cbn [length]; lia)) as R. cbn [nth] in R |- *. lia. }
    assert (k2 = nth (S i) (k0 :: ks) 0). { specialize (G4 (nth (S i) (k0 :: ks) 0) ltac:(apply nth_In; cbn [length]; lia) ltac:(lia)). lia. } subst k2.
    destruct B as [->|B]; [congruence|]. eexists _, lim2. split; [exact G1|]. split.
    + intros _. split; [exact G2|]. split; [exact B|]. intros k' K1 K2. apply (In_nth _ _ 0) in K1. destruct K1 as (j & Hj & <-). cbn [length] in Hj. destruct (Nat.lt_trichotomy j (S i)) as [R|[->|R]]; [|lia|].
      * assert (nth j (k0 :: ks) 0 <= nth i (k0 :: ks) 0). { destruct (Nat.eq_dec j i) as [->|]; [lia|]. pose proof (zlt_nth (k0 :: ks) j i Ss ltac:(cbn [length]; lia)). lia. } destruct A as [->|A]; [cbn [nth] in *; lia|lia].
      * pose proof (zlt_nth (k0 :: ks) (S i) j Ss ltac:(cbn [length]; lia)). lia.
    + intros Hall. specialize (Hall (nth (S i) (k0 :: ks) 0) ltac:(apply nth_In; cbn [length]; lia)). lia.
Qed.
Lemma iframes_spec : forall l a k, In k (iframes a l) <-> a <= k < a + Z.of_nat (length l) /\ nth (Z.to_nat (k - a)) l false = true.
Proof.
  induction l as [|b l IH]; intros a k; [cbn; split; [intros []|lia]|]. cbn [iframes length]. rewrite in_app_iff, IH. destruct (Z.eq_dec k a) as [->|N].
  - rewrite Z.sub_diag. cbn [Z.to_nat nth]. split; [intros [H|[H _]]; [destruct b; [split; [lia|reflexivity]|destruct H]|lia]|intros [_ ->]; left; left; reflexivity].
  - split.
    + intros [H|[H1 H2]]; [destruct b; [destruct H as [H|[]]; congruence|destruct H]|]. split; [lia|]. replace (Z.to_nat (k - a)) with (S (Z.to_nat (k - (a + 1)))) by lia. exact H2.
    + intros [H1 H2]. right. split; [lia|]. replace (Z.to_nat (k - a)) with (S (Z.to_nat (k - (a + 1)))) in H2 by lia. exact H2.
Qed.
Lemma iframes_sorted : forall l a, StronglySorted Z.lt (iframes a l).
Proof.
  induction l as [|b l IH]; intros a; [constructor|]. cbn [iframes]. destruct b; [|apply IH]. constructor; [apply IH|]. apply Forall_forall. intros k Hk. apply iframes_spec in Hk. lia.
Qed.
Lemma parse_stss_spec : forall k0 ks, StronglySorted Z.lt (k0 :: ks) -> Forall (fun k => 0 <= k < 2 ^ 32 - 1) (k0 :: ks) -> Z.of_nat (S (length ks)) < 2 ^ 32 -> parse_stss (skipn 2 (write_stss (k0 :: ks))) = Some (keytab k0 ks, []).
Proof.
  intros k0 ks Ss F B. unfold write_stss, fullbox. cbn [skipn]. unfold parse_stss. rewrite u32_id by (cbn [length]; lia).
  assert (E : map (fun k => u32 (k + 1)) (k0 :: ks) = map (fun k => k + 1) (k0 :: ks)). { apply map_ext_in. intros k Hk. rewrite Forall_forall in F. specialize (F k Hk). cbv beta in F. apply u32_id. lia. }
  rewrite E. replace (length (k0 :: ks)) with (length (map (fun k => k + 1) (k0 :: ks))) by apply map_length. rewrite <- (app_nil_r (map (fun k => k + 1) (k0 :: ks))) at 2. rewrite take_app. f_equal. f_equal.
  cbn [map stss_read]. change (0 <? 0) with false. cbv iota. replace (k0 + 1 - 1) with k0 by lia. pose proof (Forall_inv F) as f. cbv beta in f. rewrite (u32_id k0) by lia. apply StronglySorted_inv in Ss. destruct Ss as [S1 S2].
  rewrite stss_read_spec; [reflexivity|lia|intros k r ->; exact (Forall_inv S2)|exact S1|exact F].
Qed.
Lemma key_frames_ok : forall flags, Z.of_nat (length flags) < 2 ^ 31 -> existsb (fun b => b) flags = true -> exists m, parse_stss (skipn 2 (write_stss (iframes 0 flags))) = Some (m, [])
  /\ forall times o hc ord tb i, (i < length flags)%nat -> is_iframe (mkT times o hc ord tb (Some m)) (Z.of_nat i) = Some (nth i flags false).
Proof.
  intros flags B Ex. pose proof (iframes_sorted flags 0) as Ss.
  assert (Fb : Forall (fun k => 0 <= k < 2 ^ 32 - 1) (iframes 0 flags)) by (apply Forall_forall; intros k Hk; apply iframes_spec in Hk; lia).
  assert (Lb : forall l a, (length (iframes a l) <= length l)%nat). { clear. induction l as [|b l IH]; intros a; [cbn; lia|]. cbn [iframes]. rewrite app_length. cbn [length]. specialize (IH (a + 1)). destruct b; cbn [length]; lia. }
  specialize (Lb flags 0).
  destruct (iframes 0 flags) as [|k0 ks] eqn:Ei.
  { exfalso. apply existsb_exists in Ex. destruct Ex as (b & Hb & ->). apply (In_nth _ _ false) in Hb. destruct Hb as (i & Hi & E). assert (In (Z.of_nat i) (iframes 0 flags)) as Q by (apply iframes_spec; split; [lia|]; rewrite Z.sub_0_r, Nat2Z.id; exact E). rewrite Ei in Q. exact Q. }
  exists (keytab k0 ks). split; [apply parse_stss_spec; [exact Ss|exact Fb|cbn [length] in Lb; lia]|]. intros times o hc ord tb i Hi. unfold is_iframe. cbn [t_keys].
  destruct (iframe_iff k0 ks (Z.of_nat i) Ss) as (x & E1 & E2). unfold iframe_at in E1. pose proof (keytab_length k0 ks) as L. destruct (keytab k0 ks) as [|e m] eqn:Em; [discriminate|].
  destruct (rm_get 0 (e :: m) (Z.of_nat i)) as [[ret j]|]; [|discriminate]. injection E1 as <-. cbn [fst] in E2. f_equal. rewrite <- Ei in E2.
  rewrite (iframes_spec flags 0 (Z.of_nat i)), Z.sub_0_r, Nat2Z.id in E2. destruct (nth i flags false) eqn:En; [apply Z.eqb_eq; apply E2; split; [lia|reflexivity]|].
  apply Z.eqb_neq. intros Q. apply E2 in Q. destruct Q as [_ Q]. discriminate.
Qed.
