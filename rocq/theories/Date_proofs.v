From Coq Require Import ZifyNat.
From Verif Require Import Util Dec_spec Dec_lemmas Date_model.
Local Open Scope Z_scope.
Local Ltac Zify.zify_post_hook ::= Z.div_mod_to_equations.

(** * The calendar *)
Definition year_length (y : Z) : Z := if leap y then 366 else 365.
Lemma dby_succ y : days_before_year (y + 1) = days_before_year y + year_length y.
Proof.
  unfold days_before_year, year_length, leap. replace (y + 1 - 1) with y by lia.
  destruct (Z.eqb_spec (y mod 4) 0), (Z.eqb_spec (y mod 100) 0), (Z.eqb_spec (y mod 400) 0); cbn [andb orb negb]; lia.
Qed.
Lemma dby_mono a b : a <= b -> days_before_year a <= days_before_year b.
Proof. intros H. unfold days_before_year. lia. Qed.
Lemma dbm_succ y m : 1 <= m -> days_before_month y (m + 1) = days_before_month y m + month_length y m.
Proof.
  intros H. unfold days_before_month. replace (Z.to_nat (m + 1 - 1)) with (S (Z.to_nat (m - 1))) by lia.
  assert (G : forall n a, fold_right Z.add 0 (map (month_length y) (zseq a (S n))) = fold_right Z.add 0 (map (month_length y) (zseq a n)) + month_length y (a + Z.of_nat n)).
  { clear. induction n as [|n IH]; intros a; [cbn [zseq map fold_right]; replace (a + Z.of_nat 0) with a by lia; lia|].
    change (zseq a (S (S n))) with (a :: zseq (a + 1) (S n)). change (zseq a (S n)) with (a :: zseq (a + 1) n). cbn [map fold_right]. rewrite IH. replace (a + 1 + Z.of_nat n) with (a + Z.of_nat (S n)) by lia. lia. }
  rewrite G. do 2 f_equal. lia.
Qed.
Lemma ml_bounds y m : 28 <= month_length y m <= 31.
Proof. unfold month_length. destruct (leap y); destruct (m =? 2); try lia; destruct ((m =? 4) || (m =? 6) || (m =? 9) || (m =? 11)); lia. Qed.
Lemma dbm_mono y a b : 1 <= a -> a < b -> days_before_month y a + month_length y a <= days_before_month y b.
Proof.
  intros H L. replace b with (a + 1 + Z.of_nat (Z.to_nat (b - a - 1))) by lia. generalize (Z.to_nat (b - a - 1)) as n. clear L b. intros n.
  induction n as [|n IH]; [replace (a + 1 + Z.of_nat 0) with (a + 1) by lia; rewrite dbm_succ by lia; lia|].
  replace (a + 1 + Z.of_nat (S n)) with (a + 1 + Z.of_nat n + 1) by lia. rewrite dbm_succ by lia. pose proof (ml_bounds y (a + 1 + Z.of_nat n)). lia.
Qed.
Lemma dbm_year y : days_before_month y 13 = year_length y.
Proof. unfold days_before_month, month_length, year_length. change (Z.to_nat (13 - 1)) with 12%nat. cbn. destruct (leap y); reflexivity. Qed.
Lemma dbm_1 y : days_before_month y 1 = 0. Proof. reflexivity. Qed.
Lemma in_year y m d : real_date y m d -> 0 <= days_before_month y m + d - 1 < year_length y.
Proof.
  intros (Y & M & D). pose proof (dbm_mono y m 13 ltac:(lia) ltac:(lia)) as A. rewrite dbm_year in A.
  assert (0 <= days_before_month y m). { destruct (Z.eq_dec m 1) as [->|N]; [rewrite dbm_1; lia|]. pose proof (dbm_mono y 1 m ltac:(lia) ltac:(lia)) as B. rewrite dbm_1 in B. pose proof (ml_bounds y 1). lia. }
  lia.
Qed.
Lemma day_lt y m d y' m' d' : real_date y m d -> real_date y' m' d' -> (y < y' \/ y = y' /\ (m < m' \/ m = m' /\ d < d')) -> day_number y m d < day_number y' m' d'.
Proof.
  intros R R' [L|[<- [L|[<- L]]]]; unfold day_number.
  - pose proof (in_year _ _ _ R). pose proof (in_year _ _ _ R'). pose proof (dby_mono (y + 1) y' ltac:(lia)) as A. rewrite dby_succ in A. lia.
  - destruct R as (_ & M & D). destruct R' as (_ & M' & D'). pose proof (dbm_mono y m m' ltac:(lia) L). lia.
  - lia.
Qed.
Lemma day_inj y m d y' m' d' : real_date y m d -> real_date y' m' d' -> day_number y m d = day_number y' m' d' -> y = y' /\ m = m' /\ d = d'.
Proof.
  intros R R' E. destruct (Z.lt_trichotomy y y') as [L|[->|L]]; [pose proof (day_lt _ _ _ _ _ _ R R' ltac:(auto)); lia| |pose proof (day_lt _ _ _ _ _ _ R' R ltac:(auto)); lia].
  destruct (Z.lt_trichotomy m m') as [L|[->|L]]; [pose proof (day_lt _ _ _ _ _ _ R R' ltac:(auto)); lia| |pose proof (day_lt _ _ _ _ _ _ R' R ltac:(auto)); lia].
  destruct (Z.lt_trichotomy d d') as [L|[->|L]]; [pose proof (day_lt _ _ _ _ _ _ R R' ltac:(auto)); lia| |pose proof (day_lt _ _ _ _ _ _ R' R ltac:(auto)); lia]. auto.
Qed.
Lemma next_day_ok y m d : real_date y m d -> let '(y', m', d') := next_day y m d in real_date y' m' d' /\ day_number y' m' d' = day_number y m d + 1.
Proof.
  intros (Y & M & D). unfold next_day. destruct (Z.ltb_spec d (month_length y m)) as [L|L]; [split; [unfold real_date; lia|unfold day_number; lia]|].
  destruct (Z.ltb_spec m 12) as [K|K].
  - split; [pose proof (ml_bounds y (m + 1)); unfold real_date; lia|]. unfold day_number. rewrite dbm_succ by lia. lia.
  - split; [pose proof (ml_bounds (y + 1) 1); unfold real_date; lia|]. unfold day_number. rewrite dby_succ. replace m with 12 in * by lia. rewrite <- dbm_year. replace 13 with (12 + 1) by lia. rewrite dbm_succ by lia. rewrite dbm_1. lia.
Qed.
Lemma second_inj y m d h mi s y' m' d' h' mi' s' : real_date y m d -> real_date y' m' d' -> real_time h mi s -> real_time h' mi' s' ->
  epoch_second y m d h mi s = epoch_second y' m' d' h' mi' s' -> (y = y' /\ m = m' /\ d = d') /\ h = h' /\ mi = mi' /\ s = s'.
Proof.
  intros R R' T T' E. unfold epoch_second in E. unfold real_time in T, T'.
  assert (A : day_number y m d = day_number y' m' d') by (set (k := day_number 1970 1 1) in *; clearbody k; lia).
  split; [apply day_inj; assumption|]. rewrite A in E. set (k := day_number 1970 1 1) in *. clearbody k. lia.
Qed.

(** * Digits *)
Lemma digits_len k : forall n, length (digits k n) = k.
Proof. induction k as [|k IH]; intros n; [reflexivity|]. cbn [digits]. rewrite app_length, IH. cbn [length]. lia. Qed.
Lemma digits_inj k : forall a b, 0 <= a < 10 ^ Z.of_nat k -> 0 <= b < 10 ^ Z.of_nat k -> digits k a = digits k b -> a = b.
Proof.
  induction k as [|k IH]; intros a b A B E; [change (10 ^ Z.of_nat 0) with 1 in *; lia|].
  cbn [digits] in E. apply app_inj_tail in E. destruct E as [E1 E2]. replace (Z.of_nat (S k)) with (Z.of_nat k + 1) in * by lia. rewrite Z.pow_add_r in A, B by lia. change (10 ^ 1) with 10 in *.
  apply IH in E1; lia.
Qed.
Lemma leq2 (a b a' b' : Z) : a = a' -> b = b' -> [a; b] = [a'; b']. Proof. congruence. Qed.
Lemma leq3 (a b c a' b' c' : Z) : a = a' -> b = b' -> c = c' -> [a; b; c] = [a'; b'; c']. Proof. congruence. Qed.
Lemma leq4 (a b c d a' b' c' d' : Z) : a = a' -> b = b' -> c = c' -> d = d' -> [a; b; c; d] = [a'; b'; c'; d']. Proof. congruence. Qed.
Lemma two_digits n : 0 <= n < 100 -> two n = digits 2 n.
Proof.
  intros H. unfold two. cbn [digits app]. destruct (Z.ltb_spec n 10) as [L|L]; [rewrite dec_1 by lia|rewrite dec_2 by lia]; cbn [app]; apply leq2; lia.
Qed.
Lemma dec_4 n : 1000 <= n < 10000 -> dec n = digits 4 n.
Proof.
  intros H. rewrite dec_unfold by lia. destruct (Z.ltb_spec n 10); [lia|]. rewrite dec_3 by lia. cbn [digits app]. apply leq4; lia.
Qed.
Lemma three_digits n : 0 <= n < 1000 -> (if n <? 100 then [48] else []) ++ (if n <? 10 then [48] else []) ++ dec n = digits 3 n.
Proof.
  intros H. cbn [digits app]. destruct (Z.ltb_spec n 100) as [L|L]; [destruct (Z.ltb_spec n 10) as [M|M]; [rewrite dec_1 by lia|rewrite dec_2 by lia]|destruct (Z.ltb_spec n 10); [lia|]; rewrite dec_3 by lia]; cbn [app]; apply leq3; lia.
Qed.
Lemma app_len_inj {A} (a b c d : list A) : length a = length c -> a ++ b = c ++ d -> a = c /\ b = d.
Proof. intros L E. split; [apply (f_equal (firstn (length a))) in E|apply (f_equal (skipn (length a))) in E].
  - rewrite firstn_app, Nat.sub_diag, firstn_all, firstn_O, app_nil_r in E. rewrite L in E. rewrite firstn_app, Nat.sub_diag, firstn_all, firstn_O, app_nil_r in E. exact E.
  - rewrite skipn_app, Nat.sub_diag, skipn_all in E. rewrite L in E. rewrite skipn_app, Nat.sub_diag, skipn_all in E. exact E.
Qed.
Lemma zone_inj a b : -6000 < a < 6000 -> -6000 < b < 6000 -> zone_text a = zone_text b -> a = b.
Proof.
  intros A B. unfold zone_text. destruct (Z.eqb_spec a 0) as [QA|QA], (Z.eqb_spec b 0) as [QB|QB]; intros E.
  - lia.
  - exfalso. apply (f_equal (@length Z)) in E. rewrite !app_length, !digits_len in E. cbn [length] in E. lia.
  - exfalso. apply (f_equal (@length Z)) in E. rewrite !app_length, !digits_len in E. cbn [length] in E. lia.
  - apply app_len_inj in E; [|destruct (a <? 0), (b <? 0); reflexivity]. destruct E as [E1 E].
    apply app_len_inj in E; [|rewrite !digits_len; reflexivity]. destruct E as [E2 E]. apply app_len_inj in E; [|reflexivity]. destruct E as [_ E3].
    apply (digits_inj 2) in E2; [|change (10 ^ Z.of_nat 2) with 100; lia|change (10 ^ Z.of_nat 2) with 100; lia].
    apply (digits_inj 2) in E3; [|change (10 ^ Z.of_nat 2) with 100; lia|change (10 ^ Z.of_nat 2) with 100; lia].
    assert (a <? 0 = (b <? 0)) by (destruct (a <? 0), (b <? 0); [reflexivity|discriminate|discriminate|reflexivity]). lia.
Qed.
Lemma iso_inj y m d h mi s ms zo y' m' d' h' mi' s' ms' zo' :
  0 <= y < 10000 -> 0 <= y' < 10000 -> 0 <= m < 100 -> 0 <= m' < 100 -> 0 <= d < 100 -> 0 <= d' < 100 -> real_time h mi s -> real_time h' mi' s' -> 0 <= ms < 1000 -> 0 <= ms' < 1000 ->
  iso_text y m d h mi s ms zo = iso_text y' m' d' h' mi' s' ms' zo' -> y = y' /\ m = m' /\ d = d' /\ h = h' /\ mi = mi' /\ s = s' /\ ms = ms' /\ zo = zo'.
Proof.
  unfold real_time. intros Y Y' M M' D D' T T' S S' E. unfold iso_text in E.
  Local Ltac nxt E Q := apply app_len_inj in E; [destruct E as [Q E]|rewrite ?digits_len; reflexivity].
  nxt E Q1. nxt E X1. nxt E Q2. nxt E X2. nxt E Q3. nxt E X3. nxt E Q4. nxt E X4. nxt E Q5. nxt E X5. nxt E Q6. nxt E X6. nxt E Q7. clear X1 X2 X3 X4 X5 X6.
  apply digits_inj in Q1; [|change (10 ^ Z.of_nat 4) with 10000; lia|change (10 ^ Z.of_nat 4) with 10000; lia].
  apply digits_inj in Q2; [|change (10 ^ Z.of_nat 2) with 100; lia|change (10 ^ Z.of_nat 2) with 100; lia].
  apply digits_inj in Q3; [|change (10 ^ Z.of_nat 2) with 100; lia|change (10 ^ Z.of_nat 2) with 100; lia].
  apply digits_inj in Q4; [|change (10 ^ Z.of_nat 2) with 100; lia|change (10 ^ Z.of_nat 2) with 100; lia].
  apply digits_inj in Q5; [|change (10 ^ Z.of_nat 2) with 100; lia|change (10 ^ Z.of_nat 2) with 100; lia].
  apply digits_inj in Q6; [|change (10 ^ Z.of_nat 2) with 100; lia|change (10 ^ Z.of_nat 2) with 100; lia].
  apply digits_inj in Q7; [|change (10 ^ Z.of_nat 3) with 1000; lia|change (10 ^ Z.of_nat 3) with 1000; lia].
  repeat split; assumption.
Qed.
Lemma denotes_one text a b : denotes text a -> denotes text b -> a = b.
Proof.
  intros (y & m & d & h & mi & s & ms & zo & Y & R & T & S & Z & E & ->) (y' & m' & d' & h' & mi' & s' & ms' & zo' & Y' & R' & T' & S' & Z' & E' & ->).
  rewrite E in E'. pose proof R as (R1 & R2 & R3). pose proof R' as (R1' & R2' & R3'). pose proof (ml_bounds y m). pose proof (ml_bounds y' m').
  apply iso_inj in E'; try assumption; try lia. destruct E' as (-> & -> & -> & -> & -> & -> & -> & E'). apply zone_inj in E'; [|assumption|assumption]. subst. reflexivity.
Qed.

(** * The text of a clock *)
Lemma mod_small_16 x : 0 <= x < 65536 -> x mod 65536 = x. Proof. intros H. apply Z.mod_small. exact H. Qed.
Definition hn_ok (hn : Z) : Prop := 0 <= hn < 2 ^ 63.
Lemma text_front z0 t m hn : broken_down z0 t m -> 70 <= tm_year m <= 8099 -> hn_ok hn -> forall z local, forall zone,
  to_date_string (tm_to_sm m hn) ++ [84] ++ to_time_string (tm_to_sm m hn) ++ [46] ++ ms_string z (ck_st (now local z m hn)) ++ zone
  = iso_text (1900 + tm_year m) (tm_mon m + 1) (tm_mday m) (tm_hour m) (tm_min m) (tm_sec m) (hn / 10000 mod 1000) zone.
Proof.
  intros (R & T & E) Y H z local zone. pose proof (ml_bounds (1900 + tm_year m) (tm_mon m + 1)) as ML. destruct R as (_ & M & D). unfold real_time in T. unfold hn_ok in H.
  unfold to_date_string, to_time_string, ms_string, now, total_hnano. cbn [ck_st]. unfold tm_to_sm, sm_to_tm. cbn [wYear wMonth wDayOfWeek wDay wHour wMinute wSecond st_hnano ck_st tm_year tm_mon tm_mday tm_hour tm_min tm_sec].
  rewrite !mod_small_16 by lia. unfold u64. rewrite (Z.mod_small hn) by (change (2 ^ 64) with (2 * 2 ^ 63); lia).
  replace (hn =? UINT64_MAX) with false by (unfold UINT64_MAX; change (2 ^ 64) with (2 * 2 ^ 63); lia).
  rewrite three_digits by lia. rewrite !two_digits by lia. rewrite dec_4 by lia. replace (hn mod 10000000 / 10000) with (hn / 10000 mod 1000) by lia.
  unfold iso_text. rewrite <- !app_assoc. reflexivity.
Qed.
(** the zone printed by a local clock east of Greenwich, or less than an hour west *)
Lemma text_zone h : 0 <= h < 100 -> (if negb (h =? 0) then (if 0 <? h then [43] ++ (if h <? 10 then [48] else []) ++ dec h else [45] ++ (if u64 (- h) <? 10 then [48] else []) ++ dec (u64 (- h))) ++ [58; 48; 48] else [90]) = zone_text (60 * h).
Proof.
  intros H. unfold zone_text. destruct (Z.eqb_spec h 0) as [->|N]; [reflexivity|]. cbn [negb]. replace (0 <? h) with true by lia. replace (60 * h =? 0) with false by lia. replace (60 * h <? 0) with false by lia.
  replace (Z.abs (60 * h) / 60) with h by lia. replace (Z.abs (60 * h) mod 60) with 0 by lia. rewrite <- two_digits by lia. unfold two. rewrite <- !app_assoc. reflexivity.
Qed.
Lemma denotes_front z0 t m ms h : broken_down z0 t m -> 70 <= tm_year m <= 8099 -> 0 <= ms < 1000 -> -6000 < h < 6000 ->
  denotes (iso_text (1900 + tm_year m) (tm_mon m + 1) (tm_mday m) (tm_hour m) (tm_min m) (tm_sec m) ms (zone_text h)) ((t + z0 - h * 60) * 1000 + ms).
Proof.
  intros (R & T & E) Y M H. exists (1900 + tm_year m), (tm_mon m + 1), (tm_mday m), (tm_hour m), (tm_min m), (tm_sec m), ms, h.
  rewrite E. repeat (split; [first [assumption|lia|reflexivity]|]). reflexivity.
Qed.
Lemma utc_text z t m hn : broken_down 0 t m -> 70 <= tm_year m <= 8099 -> hn_ok hn -> denotes (to_xml z (now false z m hn)) (t * 1000 + hn / 10000 mod 1000).
Proof.
  intros B Y H. unfold to_xml. cbn [ck_local now]. rewrite (text_front 0 t m hn B Y H z false).
  assert (W : (if negb (0 =? 0) then (if 0 <? 0 then [43] ++ (if 0 <? 10 then [48] else []) ++ dec 0 else [45] ++ (if u64 (- 0) <? 10 then [48] else []) ++ dec (u64 (- 0))) ++ [58; 48; 48] else [90]) = zone_text 0) by reflexivity.
  rewrite W. pose proof (denotes_front 0 t m (hn / 10000 mod 1000) 0 B Y ltac:(lia) ltac:(lia)) as D. replace ((t + 0 - 0 * 60) * 1000) with (t * 1000) in D by lia. exact D.
Qed.
Lemma local_text z t m hn : broken_down z t m -> 70 <= tm_year m <= 8099 -> hn_ok hn -> -3600 < z < 360000 ->
  denotes (to_xml z (now true z m hn)) ((t + Z.rem z 3600) * 1000 + hn / 10000 mod 1000).
Proof.
  intros B Y H Z. unfold to_xml. cbn [ck_local now ck_offset ck_st]. rewrite (text_front z t m hn B Y H z true).
  assert (Q : Z.quot (utc_offset z) 60 = Z.quot z 3600) by (unfold utc_offset; rewrite Z.quot_quot by lia; reflexivity). rewrite Q.
  assert (K : 0 <= Z.quot z 3600 < 100) by (pose proof (Z.quot_rem z 3600 ltac:(lia)); pose proof (Z.rem_bound_abs z 3600 ltac:(lia)); pose proof (Z.rem_sign_nz z 3600); nia).
  unfold u64. rewrite (Z.mod_small (Z.quot z 3600)) by lia. rewrite text_zone by exact K.
  pose proof (denotes_front z t m (hn / 10000 mod 1000) (60 * Z.quot z 3600) B Y ltac:(lia) ltac:(lia)) as D.
  pose proof (Z.quot_rem z 3600 ltac:(lia)). replace (t + z - 60 * Z.quot z 3600 * 60) with (t + Z.rem z 3600) in D by lia. exact D.
Qed.
Lemma iso_len y m d h mi s ms zo : length (iso_text y m d h mi s ms zo) = (23 + length zo)%nat.
Proof. unfold iso_text. rewrite !app_length, !digits_len. cbn [length]. lia. Qed.
Lemma denotes_len text a : denotes text a -> (length text <= 29)%nat.
Proof.
  intros (y & m & d & h & mi & s & ms & zo & _ & _ & _ & _ & _ & -> & _). rewrite iso_len. unfold zone_text. destruct (zo =? 0); [cbn [length]; lia|]. rewrite !app_length, !digits_len. destruct (zo <? 0); cbn [length]; lia.
Qed.
Lemma dec_len k : forall n, 10 ^ Z.of_nat k <= n -> (k < length (dec n))%nat.
Proof.
  induction k as [|k IH]; intros n H.
  - change (10 ^ Z.of_nat 0) with 1 in H. destruct (dec_ok n ltac:(lia)) as (_ & _ & N). destruct (dec n); [congruence|cbn [length]; lia].
  - replace (Z.of_nat (S k)) with (Z.of_nat k + 1) in H by lia. rewrite Z.pow_add_r in H by lia. change (10 ^ 1) with 10 in H. pose proof (Z.pow_pos_nonneg 10 (Z.of_nat k) ltac:(lia) ltac:(lia)).
    rewrite dec_unfold by lia. replace (n <? 10) with false by lia. rewrite app_length. cbn [length]. specialize (IH (n / 10) ltac:(lia)). lia.
Qed.
Lemma west_text z t m hn : broken_down z t m -> 70 <= tm_year m <= 8099 -> hn_ok hn -> -360000 < z <= -3600 -> forall a, ~ denotes (to_xml z (now true z m hn)) a.
Proof.
  intros B Y H Z a D. apply denotes_len in D. unfold to_xml in D. cbn [ck_local now ck_offset ck_st] in D. rewrite (text_front z t m hn B Y H z true) in D. rewrite iso_len in D.
  assert (Q : Z.quot (utc_offset z) 60 = Z.quot z 3600) by (unfold utc_offset; rewrite Z.quot_quot by lia; reflexivity). rewrite Q in D.
  assert (K : -100 <= Z.quot z 3600 < 0) by (pose proof (Z.quot_rem z 3600 ltac:(lia)); pose proof (Z.rem_bound_abs z 3600 ltac:(lia)); pose proof (Z.rem_sign_nz z 3600); nia).
  unfold u64 in D. rewrite <- (Z.mod_add (Z.quot z 3600) 1 (2 ^ 64)) in D by lia. rewrite (Z.mod_small (Z.quot z 3600 + 1 * 2 ^ 64)) in D by lia.
  set (o := Z.quot z 3600 + 1 * 2 ^ 64) in *. assert (O : 10 ^ Z.of_nat 19 <= o) by (change (10 ^ Z.of_nat 19) with 10000000000000000000; unfold o; lia).
  pose proof (dec_len 19 o O) as L. clearbody o. replace (o =? 0) with false in D by (clear - O; change (10 ^ Z.of_nat 19) with 10000000000000000000 in O; lia). replace (0 <? o) with true in D by (clear - O; change (10 ^ Z.of_nat 19) with 10000000000000000000 in O; lia).
  cbn [negb] in D. rewrite !app_length in D. cbn [length] in D. lia.
Qed.

(** * Differences *)
Lemma i64_small x : 0 <= x < 2 ^ 63 -> i64 x = x.
Proof. intros H. unfold i64. rewrite Z.mod_small by (change (2 ^ 64) with (2 * 2 ^ 63); lia). replace (x <? 2 ^ 63) with true by lia. reflexivity. Qed.
Lemma ms_read z a b : hn_ok (st_hnano a) -> hn_ok (st_hnano b) -> milliseconds z a b = (st_hnano a - st_hnano b) mod 2 ^ 64 / 10000.
Proof.
  unfold hn_ok. intros A B. unfold milliseconds, total_hnano. unfold UINT64_MAX. replace (st_hnano b =? 2 ^ 64 - 1) with false by lia. replace (st_hnano a =? 2 ^ 64 - 1) with false by lia. cbn [Bool.eqb].
  unfold u64. apply i64_small. pose proof (Z.mod_pos_bound (st_hnano a - st_hnano b) (2 ^ 64) ltac:(lia)). change (2 ^ 64) with 18446744073709551616 in *. change (2 ^ 63) with 9223372036854775808. lia.
Qed.
Lemma ms_later z a b : hn_ok (st_hnano a) -> hn_ok (st_hnano b) -> st_hnano b <= st_hnano a -> milliseconds z a b = (st_hnano a - st_hnano b) / 10000.
Proof. intros A B L. rewrite ms_read by assumption. unfold hn_ok in *. rewrite Z.mod_small by lia. reflexivity. Qed.
Lemma ms_earlier z a b : hn_ok (st_hnano a) -> hn_ok (st_hnano b) -> st_hnano a < st_hnano b -> milliseconds z a b = (2 ^ 64 - (st_hnano b - st_hnano a)) / 10000.
Proof. intros A B L. rewrite ms_read by assumption. unfold hn_ok in *. rewrite <- (Z.mod_add _ 1) by lia. rewrite Z.mod_small by lia. f_equal. lia. Qed.
Lemma units_later z a b : hn_ok (st_hnano a) -> hn_ok (st_hnano b) -> st_hnano b <= st_hnano a ->
  let d := st_hnano a - st_hnano b in
  milliseconds z a b = d / 10000 /\ seconds z a b = d / 10000000 /\ minutes z a b = d / 600000000 /\ hours z a b = d / 36000000000 /\ days z a b = d / 864000000000.
Proof.
  intros A B L d. assert (D : 0 <= d) by (unfold d; lia).
  assert (M : milliseconds z a b = d / 10000) by (apply ms_later; assumption).
  assert (S : seconds z a b = d / 10000000) by (unfold seconds; rewrite M, Z.quot_div_nonneg, Z.div_div by lia; reflexivity).
  assert (N : minutes z a b = d / 600000000) by (unfold minutes; rewrite S, Z.quot_div_nonneg, Z.div_div by lia; reflexivity).
  assert (H : hours z a b = d / 36000000000) by (unfold hours; rewrite N, Z.quot_div_nonneg, Z.div_div by lia; reflexivity).
  assert (Y : days z a b = d / 864000000000) by (unfold days; rewrite N, Z.quot_div_nonneg, Z.div_div by lia; reflexivity).
  auto.
Qed.
Lemma elapsed z a b : hn_ok (st_hnano a) -> hn_ok (st_hnano b) -> st_hnano a <= st_hnano b -> clock_elapsed z a b = st_hnano b - st_hnano a.
Proof.
  intros A B L. unfold clock_elapsed, TotalHNano, UINT64_MAX. unfold hn_ok in *. replace (st_hnano b =? 2 ^ 64 - 1) with false by lia. replace (st_hnano a =? 2 ^ 64 - 1) with false by lia.
  rewrite !i64_small by assumption. unfold u64. apply Z.mod_small. lia.
Qed.
Lemma add_ms z a n : hn_ok (st_hnano a) -> 0 <= st_hnano a / 10000 + n < 2 ^ 63 -> AddMilliSeconds z a n = st_hnano a / 10000 + n.
Proof.
  intros A N. unfold hn_ok in A. unfold AddMilliSeconds, TotalMilliseconds, TotalHNano, UINT64_MAX. replace (st_hnano a =? 2 ^ 64 - 1) with false by lia.
  rewrite (i64_small (st_hnano a)) by assumption. unfold u64. rewrite Z.mod_small by lia. rewrite (i64_small (st_hnano a / 10000)) by lia. apply i64_small. exact N.
Qed.
(** days given as dates *)
Lemma mktime_date z y m d : 0 <= y < 65536 -> 0 <= m <= 11 -> 0 <= d < 65536 -> mktime z (sm_to_tm (of_date y m d)) = epoch_second (1900 + y) (m + 1) d 0 0 0 - z.
Proof.
  intros Y M D. unfold mktime, sm_to_tm, of_date. cbn [wYear wMonth wDayOfWeek wDay wHour wMinute wSecond tm_year tm_mon tm_mday tm_hour tm_min tm_sec]. rewrite !mod_small_16 by lia.
  replace (m / 12) with 0 by lia. replace (m mod 12) with m by lia. do 2 f_equal. lia.
Qed.
Lemma dbm_nonneg y m : 1 <= m -> 0 <= days_before_month y m.
Proof. intros H. destruct (Z.eq_dec m 1) as [->|N]; [rewrite dbm_1; lia|]. pose proof (dbm_mono y 1 m ltac:(lia) ltac:(lia)) as B. rewrite dbm_1 in B. pose proof (ml_bounds y 1). lia. Qed.
Lemma epoch_bounds y m d : 2000 <= y <= 20000 -> real_date y m d -> 10000 <= day_number y m d - day_number 1970 1 1 < 20000 * 366.
Proof.
  intros Y R. pose proof (in_year _ _ _ R). change (day_number 1970 1 1) with 719162. unfold day_number. pose proof (dby_mono 2000 y ltac:(lia)). pose proof (dby_mono y 20000 ltac:(lia)).
  change (days_before_year 2000) with 730119 in *. change (days_before_year 20000) with 7304484 in *. unfold year_length in *. destruct (leap y); lia.
Qed.
Lemma days_dates z y m d y' m' d' : -86400 <= z <= 86400 -> 1000 <= y <= 9999 -> 1000 <= y' <= 9999 -> real_date (1900 + y) (m + 1) d -> real_date (1900 + y') (m' + 1) d' ->
  day_number (1900 + y) (m + 1) d <= day_number (1900 + y') (m' + 1) d' ->
  days z (of_date y' m' d') (of_date y m d) = day_number (1900 + y') (m' + 1) d' - day_number (1900 + y) (m + 1) d.
Proof.
  intros Z Y Y' R R' L. pose proof R as (_ & M & D). pose proof R' as (_ & M' & D'). pose proof (ml_bounds (1900 + y) (m + 1)). pose proof (ml_bounds (1900 + y') (m' + 1)).
  pose proof (epoch_bounds (1900 + y) (m + 1) d ltac:(lia) R) as E. pose proof (epoch_bounds (1900 + y') (m' + 1) d' ltac:(lia) R') as E'.
  unfold days, minutes, seconds, milliseconds. change (st_hnano (of_date y m d)) with UINT64_MAX. change (st_hnano (of_date y' m' d')) with UINT64_MAX. rewrite Z.eqb_refl. cbn [Bool.eqb]. unfold total_hnano. change (st_hnano (of_date y m d)) with UINT64_MAX. change (st_hnano (of_date y' m' d')) with UINT64_MAX. rewrite Z.eqb_refl.
  unfold total_seconds. rewrite !mktime_date by lia. unfold epoch_second.
  set (k := day_number (1900 + y) (m + 1) d) in *. set (k' := day_number (1900 + y') (m' + 1) d') in *. clearbody k k'. set (e := day_number 1970 1 1) in *. clearbody e.
  unfold u64. change (2 ^ 64) with 18446744073709551616.
  rewrite (Z.mod_small ((k' - e) * 86400 + 0 * 3600 + 0 * 60 + 0 - z)) by lia. rewrite (Z.mod_small ((k - e) * 86400 + 0 * 3600 + 0 * 60 + 0 - z)) by lia.
  rewrite (Z.mod_small (((k' - e) * 86400 + 0 * 3600 + 0 * 60 + 0 - z) * 10000000)) by lia. rewrite (Z.mod_small (((k - e) * 86400 + 0 * 3600 + 0 * 60 + 0 - z) * 10000000)) by lia.
  match goal with |- context [i64 (?x mod 18446744073709551616 / 10000)] => replace x with ((k' - k) * 864000000000) by lia end.
  rewrite Z.mod_small by lia. replace ((k' - k) * 864000000000 / 10000) with ((k' - k) * 86400000) by lia. rewrite i64_small by (change (2 ^ 63) with 9223372036854775808; lia).
  replace (Z.quot ((k' - k) * 86400000) 1000) with ((k' - k) * 86400) by (rewrite Z.quot_div_nonneg by lia; lia).
  replace (Z.quot ((k' - k) * 86400) 60) with ((k' - k) * 1440) by (rewrite Z.quot_div_nonneg by lia; lia).
  rewrite Z.quot_mul by lia. reflexivity.
Qed.

(** * The creation time *)
Lemma start_used_ok : epoch_second (1900 + 1904) (1 + 1) 1 0 0 0 = epoch_second 3804 2 1 0 0 0. Proof. reflexivity. Qed.
Lemma mktime_tm z t m : broken_down 0 t m -> tm_year m <= 8099 -> forall hn, -1900 < tm_year m -> 0 <= tm_year m -> mktime z (sm_to_tm (tm_to_sm m hn)) = t - z.
Proof.
  intros (R & T & E) Y hn Y1 Y2. pose proof R as (_ & M & D). pose proof (ml_bounds (1900 + tm_year m) (tm_mon m + 1)). unfold real_time in T.
  unfold mktime, sm_to_tm, tm_to_sm. cbn [wYear wMonth wDayOfWeek wDay wHour wMinute wSecond tm_year tm_mon tm_mday tm_hour tm_min tm_sec]. rewrite !mod_small_16 by lia.
  replace (tm_mon m / 12) with 0 by lia. replace (tm_mon m mod 12) with (tm_mon m) by lia. replace (1900 + tm_year m + 0) with (1900 + tm_year m) by lia. rewrite E. lia.
Qed.
Lemma i64_near x : - 2 ^ 63 <= x < 2 ^ 63 -> i64 x = x.
Proof.
  intros H. unfold i64. destruct (Z_lt_le_dec x 0) as [L|L].
  - rewrite <- (Z.mod_add x 1) by lia. rewrite Z.mod_small by lia. replace (x + 1 * 2 ^ 64 <? 2 ^ 63) with false by lia. lia.
  - rewrite Z.mod_small by lia. replace (x <? 2 ^ 63) with true by lia. reflexivity.
Qed.
Lemma mp4now_is z t m hn : broken_down 0 t m -> 70 <= tm_year m <= 8099 -> hn_ok hn -> 0 <= t < 2 ^ 39 ->
  mp4now z m hn = (t - epoch_second 3804 2 1 0 0 0) mod 2 ^ 64.
Proof.
  intros B Y H T. unfold mp4now, now, seconds, milliseconds. cbn [ck_st]. change (st_hnano (of_date 1904 1 1)) with UINT64_MAX. rewrite Z.eqb_refl.
  assert (N : st_hnano (tm_to_sm m hn) =? UINT64_MAX = false) by (unfold tm_to_sm, u64, UINT64_MAX; cbn [st_hnano]; unfold hn_ok in H; rewrite Z.mod_small by lia; lia).
  rewrite N. cbn [Bool.eqb]. unfold total_seconds. rewrite (mktime_tm z t m B ltac:(lia) hn ltac:(lia) ltac:(lia)). rewrite mktime_date by lia. rewrite start_used_ok.
  set (e := epoch_second 3804 2 1 0 0 0). assert (F : 0 <= e < 2 ^ 39) by (vm_compute; split; [discriminate|reflexivity]). clearbody e.
  unfold u64. rewrite <- Zminus_mod. replace (t - z - (e - z)) with (t - e) by lia. f_equal.
  assert (G : i64 ((t - e) mod 2 ^ 64 * 1000) = (t - e) * 1000). { unfold i64. rewrite Zmult_mod_idemp_l. apply (i64_near ((t - e) * 1000)). change (2 ^ 63) with 9223372036854775808. change (2 ^ 39) with 549755813888 in *. lia. }
  rewrite G. apply Z.quot_mul. lia.
Qed.
Lemma creation_wrong version z t m hn : broken_down 0 t m -> 70 <= tm_year m <= 8099 -> hn_ok hn -> 0 <= t < 2 ^ 39 ->
  (version = 0 -> creation_field version z m hn = (t - epoch_second 1904 1 1 0 0 0 - (epoch_second 3804 2 1 0 0 0 - epoch_second 1904 1 1 0 0 0)) mod 2 ^ 32
     /\ creation_field version z m hn <> (t - epoch_second 1904 1 1 0 0 0) mod 2 ^ 32)
  /\ (version = 1 -> creation_field version z m hn <> (t - epoch_second 1904 1 1 0 0 0)).
Proof.
  intros B Y H T. unfold creation_field. rewrite (mp4now_is z t m hn B Y H T).
  set (a := epoch_second 3804 2 1 0 0 0) in *. set (b := epoch_second 1904 1 1 0 0 0) in *.
  assert (A : a mod 2 ^ 32 <> b mod 2 ^ 32) by (vm_compute; discriminate). assert (A1 : 0 < a < 2 ^ 36) by (vm_compute; split; reflexivity). assert (B1 : - 2 ^ 36 < b < 0) by (vm_compute; split; reflexivity). clearbody a b.
  split; intros ->.
  - change (0 =? 1) with false. cbv iota. assert (E : ((t - a) mod 2 ^ 64) mod 2 ^ 32 = (t - a) mod 2 ^ 32) by (clear; change (2 ^ 64) with 18446744073709551616; change (2 ^ 32) with 4294967296; lia).
    rewrite E. split; [f_equal; lia|]. intros Q. change (2 ^ 32) with 4294967296 in *. lia.
  - change (1 =? 1) with true. cbv iota. change (2 ^ 64) with 18446744073709551616. change (2 ^ 36) with 68719476736 in *. change (2 ^ 39) with 549755813888 in *. lia.
Qed.

(** * Clocks from text *)
Lemma mem24 (mem : list Z) : length mem = 24%nat -> exists b0 b1 b2 b3 b4 b5 b6 b7 b8 b9 b10 b11 b12 b13 b14 b15 b16 b17 b18 b19 b20 b21 b22 b23, mem = [b0; b1; b2; b3; b4; b5; b6; b7; b8; b9; b10; b11; b12; b13; b14; b15; b16; b17; b18; b19; b20; b21; b22; b23].
Proof. intros L. do 24 (destruct mem as [|? mem]; [discriminate|]). destruct mem; [|discriminate]. do 24 eexists. reflexivity. Qed.
Lemma of_text_fields mem y m d h mi s ms : length mem = 24%nat -> Forall (fun x => 0 <= x < 65536) [y; m; d; h; mi; s; ms] ->
  exists k, of_text mem y m d h mi s ms = mkSt y m 0 d h mi s ms (65536 * k) /\ k = field16 mem 18 + 65536 * field16 mem 20 + 2 ^ 32 * field16 mem 22.
Proof.
  intros L F. repeat (match type of F with Forall _ (_ :: _) => inversion F as [|? ? ?B F']; subst; clear F; rename F' into F; cbv beta in B end).
  destruct (mem24 mem L) as (b0 & b1 & b2 & b3 & b4 & b5 & b6 & b7 & b8 & b9 & b10 & b11 & b12 & b13 & b14 & b15 & b16 & b17 & b18 & b19 & b20 & b21 & b22 & b23 & ->).
  eexists. split; [|reflexivity]. unfold of_text, scanned, int_bytes. cbn [patch app skipn length]. unfold systime_of_memory, field64, field16. cbn [nth Nat.add].
  change (2 ^ 16) with 65536. change (2 ^ 32) with 4294967296. change (2 ^ 48) with 281474976710656.
  f_equal; lia.
Qed.
