(** Lemmas about TimeCode_model: the time code stream. *)
From Verif Require Import Util SampleTab_model RangeMap_model TimeTab_model TimeTab_proofs TimeTab_proofs2 TimeTab_proofs3 TimeTab_proofs4 TimeCode_model TimeCode_proofs.
From Coq Require Import ZifyNat.
Local Open Scope Z_scope.
Local Ltac Zify.zify_post_hook ::= Z.div_mod_to_equations.
Local Notation u32 := SampleTab_model.u32.
Local Notation u64 := SampleTab_model.u64.

Lemma u64_small x : 0 <= x < 2 ^ 64 -> u64 x = x.
Proof. intros. unfold SampleTab_model.u64. apply Z.mod_small. assumption. Qed.
Lemma small25 c : proper 25 c -> small c. Proof. apply proper_small. lia. Qed.
Lemma bcd_inj a b : proper 25 a -> proper 25 b -> bcd a = bcd b -> a = b.
Proof.
  intros A B E. assert (Q : tc_is 25 a = tc_is 25 b) by (rewrite <- !unpack_bcd by (apply small25; assumption); rewrite E; reflexivity).
  destruct a as [a1 a2 a3 a4], b as [b1 b2 b3 b4]. unfold tc_is in Q. cbn [ck_h ck_m ck_s ck_f] in Q. congruence.
Qed.
Lemma bcd_next x c : proper 25 x -> proper 25 c -> (bcd (at_count 25 (count 25 x + 1)) =? bcd c) = (count 25 c =? (count 25 x + 1) mod day 25).
Proof.
  intros X C. destruct (at_count_proper 25 (count 25 x + 1) ltac:(lia)) as (P & E). destruct (Z.eqb_spec (count 25 c) ((count 25 x + 1) mod day 25)) as [Q|Q].
  - apply Z.eqb_eq. f_equal. apply (count_inj 25); [assumption|assumption|]. lia.
  - apply Z.eqb_neq. intros R. apply Q. apply bcd_inj in R; [|assumption|assumption]. subst c. exact E.
Qed.
Definition after (avg : Z) (x : Z * clock) : ltc := mkL (tc_is 25 (at_count 25 (count 25 (snd x) + 1))) (fst x + avg).
Definition fine (avg : Z) (x : Z * clock) : Prop := 0 <= fst x /\ fst x + avg < 2 ^ 64 /\ proper 25 (snd x).
Lemma queue_after avg x y : 0 <= avg -> fine avg x -> fine avg y -> fst x < fst y -> ltc_queue avg (after avg x) (fst y) (bcd (snd y)) = (after avg y, negb (goes_on avg x y)).
Proof.
  intros A (X1 & X2 & X3) (Y1 & Y2 & Y3) L. unfold ltc_queue, after. cbn [l_base l_next]. cbv zeta. rewrite (u64_small (fst y + avg)) by lia.
  replace (fst x + avg - avg) with (fst x) by lia. rewrite (u64_small (fst x)) by lia. destruct (Z.leb_spec (fst y) (fst x)); [lia|]. rewrite andb_false_r.
  destruct (at_count_proper 25 (count 25 (snd x) + 1) ltac:(lia)) as (P & E).
  rewrite pack_is by (apply small25; assumption). rewrite bcd_next by assumption. unfold goes_on. destruct ((fst x + avg) / 10000 =? fst y / 10000); cbn [andb negb].
  - destruct (Z.eqb_spec (count 25 (snd y)) ((count 25 (snd x) + 1) mod day 25)) as [Q|Q]; cbn [negb].
    + f_equal. f_equal. rewrite next_ok by (try assumption; lia). rewrite (count_inj 25 (at_count 25 (count 25 (snd x) + 1)) (snd y)) by (try assumption; lia). reflexivity.
    + f_equal. f_equal. rewrite unpack_bcd by (apply small25; assumption). change (tc_assign (tc_is 25 (at_count 25 (count 25 (snd x) + 1))) (tc_is 25 (snd y))) with (tc_is 25 (snd y)). apply next_ok; [lia|assumption].
  - f_equal. f_equal. rewrite unpack_bcd by (apply small25; assumption). change (tc_assign (tc_is 25 (at_count 25 (count 25 (snd x) + 1))) (tc_is 25 (snd y))) with (tc_is 25 (snd y)). apply next_ok; [lia|assumption].
Qed.
Lemma record_after avg l : 0 <= avg -> forall x, fine avg x -> Forall (fine avg) l -> later (fst x) l -> ltc_record avg (after avg x) (words l) = words (breaks avg x l).
Proof.
  intros A. induction l as [|y l IH]; intros x X F L; [reflexivity|]. inversion F as [|? ? Y F' E1]; subst. destruct L as (L1 & L2). cbn [words map ltc_record breaks]. rewrite queue_after by assumption. cbv beta iota.
  unfold words in *. rewrite map_app, IH by assumption. f_equal. destruct (goes_on avg x y); reflexivity.
Qed.
Lemma record_first avg t c l : 0 <= avg -> fine avg (t, c) -> Forall (fine avg) l -> later t l -> ltc_record avg ltc_new (words ((t, c) :: l)) = words ((if (t <? 10000) && (count 25 c =? 0) then [] else [(t, c)]) ++ breaks avg (t, c) l).
Proof.
  intros A X F L. pose proof X as (X1 & X2 & X3). cbn [fst snd] in X1, X2, X3. change (words ((t, c) :: l)) with ((t, bcd c) :: words l). cbn [ltc_record]. unfold ltc_queue, ltc_new. cbn [l_base l_next]. cbv zeta.
  destruct (Z.ltb_spec avg 0); [lia|]. cbn [andb]. rewrite (u64_small (t + avg)) by lia. change (0 / 10000) with 0. change tc_zero with (tc_is 25 (mkClock 0 0 0 0)).
  assert (PZ : proper 25 (mkClock 0 0 0 0)) by (unfold proper; cbn [ck_h ck_m ck_s ck_f]; lia). rewrite pack_is by (apply small25; assumption). replace (0 =? t / 10000) with (t <? 10000) by lia.
  unfold words. rewrite map_app. destruct (Z.ltb_spec t 10000); cbn [andb].
  - destruct (Z.eqb_spec (count 25 c) 0) as [Q|Q].
    + assert (E : c = mkClock 0 0 0 0) by (apply (count_inj 25); [assumption|assumption|rewrite Q; reflexivity]). subst c. rewrite Z.eqb_refl. cbn [map app]. rewrite next_ok by (try assumption; lia). apply (record_after avg l A (t, mkClock 0 0 0 0)); assumption.
    + destruct (Z.eqb_spec (bcd (mkClock 0 0 0 0)) (bcd c)) as [R|R]; [apply bcd_inj in R; [|assumption|assumption]; subst c; exfalso; apply Q; reflexivity|].
      cbn [map app]. f_equal. rewrite unpack_bcd by (apply small25; assumption). change (tc_assign (tc_is 25 (mkClock 0 0 0 0)) (tc_is 25 c)) with (tc_is 25 c). rewrite next_ok by (try assumption; lia). apply (record_after avg l A (t, c)); assumption.
  - cbn [map app]. f_equal. rewrite unpack_bcd by (apply small25; assumption). change (tc_assign (tc_is 25 (mkClock 0 0 0 0)) (tc_is 25 c)) with (tc_is 25 c). rewrite next_ok by (try assumption; lia). apply (record_after avg l A (t, c)); assumption.
Qed.
(** an unbroken run *)
Lemma play_fine n : forall t c, 0 <= t -> t + Z.of_nat n * 400000 + 400000 < 2 ^ 64 -> proper 25 c -> Forall (fine 400000) (play n t c).
Proof.
  induction n as [|n IH]; intros t c T B P; [constructor|]. cbn [play]. constructor; [unfold fine; cbn [fst snd]; repeat split; try lia; apply P|]. apply IH; [lia|lia|]. apply at_count_proper. lia.
Qed.
Lemma play_later n : forall t p c, p < t -> later p (play n t c).
Proof. induction n as [|n IH]; intros t p c H; [exact Logic.I|]. cbn [play later fst]. split; [exact H|]. apply IH. lia. Qed.
Lemma play_breaks n : forall t c, proper 25 c -> breaks 400000 (t, c) (play n (t + 400000) (at_count 25 (count 25 c + 1))) = [].
Proof.
  induction n as [|n IH]; intros t c P; [reflexivity|]. cbn [play breaks]. destruct (at_count_proper 25 (count 25 c + 1) ltac:(lia)) as (Q & E). replace (goes_on 400000 (t, c) (t + 400000, at_count 25 (count 25 c + 1))) with true by (unfold goes_on; cbn [fst snd]; rewrite E, !Z.eqb_refl; reflexivity). cbn [app]. apply IH. assumption.
Qed.
Lemma record_play n t c : proper 25 c -> 0 <= t -> t + Z.of_nat n * 400000 + 800000 < 2 ^ 64 ->
  ltc_record 400000 ltc_new (words (play (S n) t c)) = if (t <? 10000) && (count 25 c =? 0) then [] else [(t, bcd c)].
Proof.
  intros P T B. cbn [play]. destruct (at_count_proper 25 (count 25 c + 1) ltac:(lia)) as (Q & E). rewrite record_first.
  - rewrite play_breaks by assumption. rewrite app_nil_r. destruct ((t <? 10000) && (count 25 c =? 0)); reflexivity.
  - lia.
  - unfold fine. cbn [fst snd]. repeat split; try lia; apply P.
  - apply play_fine; [lia|lia|assumption].
  - apply play_later. lia.
Qed.

(** ** reading *)
Lemma interp_first lw ts t so c codes time : lw = 32 \/ lw = 64 -> proper 25 c -> 0 < ts -> composition_time t 0 = Some 0 -> so <= time -> time - so < 10000000 * 2 ^ 32 -> composition_sample_hns ts t (time - so) = Some 0 ->
  interpolated lw ts t so 400000 (Some (bcd c) :: codes) time = Interpolated (bcd (at_count 25 (count 25 c + (time - so) / 400000))).
Proof.
  intros W P T C L B E. unfold interpolated. change (10000000 * 2 ^ 32) with 42949672960000000 in B.
  replace (if so <? time then (time - so, composition_sample_hns ts t (time - so)) else (0, Some 0)) with (time - so, Some 0) by (destruct (Z.ltb_spec so time); [rewrite E; reflexivity|f_equal; lia]).
  rewrite C. cbn [option_map nth_error Z.to_nat]. replace (to_hns ts 0) with 0 by (unfold to_hns; rewrite Z.mul_0_r; change (u64 0) with 0; rewrite Z.div_0_l by lia; reflexivity).
  change (u64 (0 - 400000)) with (18446744073709551616 - 400000). destruct (Z.ltb_spec (18446744073709551616 - 400000) (time - so)); [lia|]. cbn [andb]. change (400000 =? 0) with false. change (u32 (10000000 / 400000)) with 25. change (25 =? 0) with false. cbv beta iota zeta.
  rewrite unpack_bcd by (apply small25; assumption). change (mkTC 25 (frames (tc_is 25 c)) (seconds (tc_is 25 c)) (minutes (tc_is 25 c)) (hours (tc_is 25 c))) with (tc_is 25 c).
  destruct (at_count_proper 25 (count 25 c + (time - so) / 400000) ltac:(lia)) as (Q & _).
  assert (R : (if 0 <? time - so then tc_add (tc_is 25 c) (tc_of_time (time - so - 0)) else tc_sub lw (tc_is 25 c) (tc_of_time (0 - (time - so)))) = tc_is 25 (at_count 25 (count 25 c + (time - so) / 400000))).
  { destruct (Z.ltb_spec 0 (time - so)).
    - rewrite Z.sub_0_r. destruct (of_time_ok (time - so) ltac:(change (10000000 * 2 ^ 32) with 42949672960000000; lia)) as (d & E1 & E2 & E3). rewrite E1, add_ok; [|lia|assumption|assumption]. rewrite E3. reflexivity.
    - replace (time - so) with 0 by lia. change (tc_of_time (0 - 0)) with (tc_is 25 (mkClock 0 0 0 0)). change (0 / 400000) with 0. rewrite Z.add_0_r. replace (count 25 c) with (count 25 c - count 25 (mkClock 0 0 0 0)) by (change (count 25 (mkClock 0 0 0 0)) with 0; lia).
      assert (PZ : proper 25 (mkClock 0 0 0 0)) by (unfold proper; cbn [ck_h ck_m ck_s ck_f]; lia). pose proof P as (P1 & P2 & P3 & P4). destruct W as [-> | ->].
      + apply sub32; [assumption|assumption|change (count 25 (mkClock 0 0 0 0)) with 0; apply count_bound; assumption|]. unfold exact_minute. cbn [ck_h ck_m ck_s ck_f]. lia.
      + apply sub_covered; [lia|assumption|assumption| |lia]. unfold covers. cbn [ck_h ck_m ck_s ck_f]. lia. }
  rewrite R. f_equal. rewrite copied_is by (apply small25; assumption). apply pack_is. apply small25. assumption.
Qed.
Lemma single_track scale unscale b d : exists t, read_track (write_stts scale unscale b [d]) [] [] = Some t /\ composition_time t 0 = Some 0 /\ forall ts x, composition_sample_hns ts t x = Some 0.
Proof.
  rewrite single_stts. eexists. split; [vm_compute; reflexivity|]. split; [vm_compute; reflexivity|]. intros ts x. unfold composition_sample_hns, composition_sample. cbn [t_has_ctts]. unfold decoding_sample. cbn [t_table].
  set (k := of_hns ts x). unfold rm_get. cbn [length]. change (key d0 [(0, {| d_samples := 0; d_duration := 0; d_delta := 0 |})] 0) with 0.
  change (1 - 1)%nat with 0%nat. change (key d0 [(0, {| d_samples := 0; d_duration := 0; d_delta := 0 |})] 0) with 0.
  destruct (k <? 0) eqn:E1; [reflexivity|]. destruct (0 <? k) eqn:E2; [reflexivity|]. assert (Q : k = 0) by lia. clearbody k. subst k. reflexivity.
Qed.
(** ** after the first break: the sample being presented is not looked at *)
Lemma interp_skips lw rs ts rest ord k : Forall (fun r => 0 < fst r)%nat rs -> Forall (fun r => 0 < snd r < 2 ^ 32) rs -> rs <> [] -> Z.of_nat (length (expand rs)) < 2 ^ 31 ->
  exists times tb, parse_stts (0 :: Z.of_nat (length rs) :: enc2 rs ++ rest) = Some (times, tb, rest)
  /\ forall so time, so < time -> 0 <= of_hns ts (time - so) < zsum (expand rs) -> exists i, (i < length times)%nat /\ fst (nth i times (0, 0)) <= of_hns ts (time - so) < fst (nth i times (0, 0)) + snd (nth i times (0, 0))
     /\ (fst (nth i times (0, 0)) < of_hns ts (time - so) -> (0 < i)%nat -> (S i < length times)%nat -> forall av codes codes', length codes = length codes' -> (forall j, j <> i -> nth_error codes j = nth_error codes' j) ->
         interpolated lw ts (TimeTab_model.mkT times [] false ord tb k) so av codes time = interpolated lw ts (TimeTab_model.mkT times [] false ord tb k) so av codes' time).
Proof.
  intros F1 F2 N B. destruct (composition_search rs ts rest ord k F1 F2 N B) as (times & tb & E1 & E2). exists times, tb. split; [exact E1|]. intros so time L R. destruct (E2 (time - so) R) as (i & I1 & I2 & I3). exists i. split; [exact I1|]. split; [exact I2|].
  intros Q Hi Hn av codes codes' LC D. destruct (Nat.eqb_spec i 0); [lia|]. destruct (Z.eqb_spec (fst (nth i times (0, 0))) (of_hns ts (time - so))); [lia|]. rewrite Z.min_l in I3 by lia.
  unfold interpolated. destruct (Z.ltb_spec so time); [|lia]. rewrite I3. destruct codes as [|c0 codes]; destruct codes' as [|c1 codes']; [reflexivity|cbn [length] in LC; lia|cbn [length] in LC; lia|].
  rewrite (D (Z.to_nat (Z.of_nat i + 1))) by lia. reflexivity.
Qed.
(** ** the answer, for any sample found *)
Lemma answer_25 lw ts t so codes time s at_ c : lw = 32 \/ lw = 64 -> proper 25 c -> so <= time -> (if so <? time then composition_sample_hns ts t (time - so) else Some 0) = Some s ->
  option_map (to_hns ts) (composition_time t s) = Some at_ -> nth_error codes (Z.to_nat s) = Some (Some (bcd c)) -> 400000 <= at_ < 2 ^ 63 -> time - so < 2 ^ 63 ->
  (Z.abs (time - so - at_) < 400000 -> interpolated lw ts t so 400000 codes time = Read (bcd c))
  /\ (400000 <= time - so - at_ < 10000000 * 2 ^ 32 -> interpolated lw ts t so 400000 codes time = Interpolated (bcd (at_count 25 (count 25 c + (time - so - at_) / 400000))))
  /\ (400000 <= at_ - (time - so) < 864000000000 -> covers c (at_count 25 ((at_ - (time - so)) / 400000)) -> interpolated lw ts t so 400000 codes time = Interpolated (bcd (at_count 25 (count 25 c - (at_ - (time - so)) / 400000)))).
Proof.
  intros W P L S' A N BA BT. unfold interpolated. destruct codes as [|c0 codes]; [destruct (Z.to_nat s); discriminate|]. change (2 ^ 63) with 9223372036854775808 in *.
  replace (if so <? time then (time - so, composition_sample_hns ts t (time - so)) else (0, Some 0)) with (time - so, Some s) by (destruct (Z.ltb_spec so time); [rewrite S'; reflexivity|rewrite <- S'; f_equal; lia]).
  rewrite A, N. rewrite (u64_small (at_ - 400000)), (u64_small (at_ + 400000)) by (change (2 ^ 64) with 18446744073709551616; lia). change (400000 =? 0) with false. change (u32 (10000000 / 400000)) with 25. change (25 =? 0) with false. cbv beta iota zeta.
  rewrite unpack_bcd by (apply small25; assumption). change (mkTC 25 (frames (tc_is 25 c)) (seconds (tc_is 25 c)) (minutes (tc_is 25 c)) (hours (tc_is 25 c))) with (tc_is 25 c).
  assert (Fin : forall k, tc_pack (tc_copied (tc_is 25 (at_count 25 k))) = bcd (at_count 25 k)).
  { intros k. destruct (at_count_proper 25 k ltac:(lia)) as (Q & _). rewrite copied_is by (apply small25; assumption). apply pack_is. apply small25. assumption. }
  split; [|split].
  - intros D. replace ((at_ - 400000 <? time - so) && (time - so <? at_ + 400000)) with true by lia. reflexivity.
  - intros D. replace ((at_ - 400000 <? time - so) && (time - so <? at_ + 400000)) with false by lia. replace (at_ <? time - so) with true by lia.
    destruct (of_time_ok (time - so - at_) ltac:(lia)) as (d & E1 & E2 & E3). rewrite E1, add_ok; [|lia|assumption|assumption]. rewrite E3, Fin. reflexivity.
  - intros D Cv. replace ((at_ - 400000 <? time - so) && (time - so <? at_ + 400000)) with false by lia. replace (at_ <? time - so) with false by lia. rewrite of_time_day by lia.
    destruct (at_count_proper 25 ((at_ - (time - so)) / 400000) ltac:(lia)) as (Q & E). set (b := at_count 25 ((at_ - (time - so)) / 400000)) in *.
    assert (EB : count 25 b = (at_ - (time - so)) / 400000) by (rewrite E; apply Z.mod_small; change (day 25) with 2160000; lia). rewrite <- EB.
    destruct W as [-> | ->].
    + rewrite sub32, Fin; [reflexivity|assumption|assumption| |].
      * destruct Cv as (C1 & C2 & C3 & C4). rewrite !count_secs. unfold secs. lia.
      * destruct Cv as (C1 & C2 & C3 & C4). unfold exact_minute. lia.
    + rewrite sub_covered, Fin; [reflexivity|lia|assumption|assumption|assumption|lia].
Qed.
