(** C77: dates, clock texts and elapsed time. *)
From Coq Require Import ZifyNat.
From Verif Require Import Util Dec_spec Dec_lemmas Date_model Date_proofs.
Local Open Scope Z_scope.
Local Ltac Zify.zify_post_hook ::= Z.div_mod_to_equations.

(** The vocabulary is sound: the number of a day goes up by one from each day to the next, two
    days do not share one, and a text denotes one instant. *)
Theorem C77_calendar : (forall y m d, real_date y m d -> let '(y', m', d') := next_day y m d in real_date y' m' d' /\ day_number y' m' d' = day_number y m d + 1)
  /\ (forall y m d y' m' d', real_date y m d -> real_date y' m' d' -> day_number y m d = day_number y' m' d' -> y = y' /\ m = m' /\ d = d')
  /\ forall text a b, denotes text a -> denotes text b -> a = b.
Proof. split; [exact next_day_ok|]. split; [exact day_inj|exact denotes_one]. Qed.
Print Assumptions C77_calendar.
Example C77_calendar_nonvacuous : next_day 1900 2 28 = (1900, 3, 1) /\ next_day 2000 2 28 = (2000, 2, 29) /\ next_day 2023 12 31 = (2024, 1, 1) /\ day_number 1 1 1 = 0 /\ epoch_second 2001 9 9 1 46 40 = 1000000000.
Proof. repeat split; reflexivity. Qed.

(** ToXml of a universal clock whose two readings of the time, [t] in seconds and [hn] in units of
    100 ns, fall in the same second: the text denotes the reading, to the millisecond. *)
Theorem C77_utc_text : forall z t m hn, broken_down 0 t m -> 70 <= tm_year m <= 8099 -> 0 <= hn < 2 ^ 63 -> hn / 10000000 = t ->
  denotes (to_xml z (now false z m hn)) (hn / 10000).
Proof. intros z t m hn B Y H E. pose proof (utc_text z t m hn B Y H) as D. replace (t * 1000 + hn / 10000 mod 1000) with (hn / 10000) in D by lia. exact D. Qed.
Print Assumptions C77_utc_text.
(** the concrete texts are character lists: 2001-09-09T01:46:40.007Z *)
Example C77_utc_text_nonvacuous : broken_down 0 1000000000 (mkTm 101 8 0 9 1 46 40)
  /\ to_xml 0 (now false 0 (mkTm 101 8 0 9 1 46 40) 10000000000078910) = [50; 48; 48; 49; 45; 48; 57; 45; 48; 57; 84; 48; 49; 58; 52; 54; 58; 52; 48; 46; 48; 48; 55; 90].
Proof. split; [unfold broken_down, real_date, real_time; cbn [tm_year tm_mon tm_mday tm_hour tm_min tm_sec]; change (month_length (1900 + 101) (8 + 1)) with 30; repeat (split; [lia|]); reflexivity|vm_compute; reflexivity]. Qed.
(** Refuted when a second begins between the two readings: the text is a second early, before the
    moment the clock was asked. *)
Theorem C77_torn_refuted : forall z t m asked hn, broken_down 0 t m -> 70 <= tm_year m <= 8099 -> 0 <= hn < 2 ^ 63 -> asked / 10000000 = t -> hn / 10000000 = t + 1 ->
  denotes (to_xml z (now false z m hn)) (hn / 10000 - 1000) /\ (hn - asked < 10000000 -> (hn / 10000 - 1000) * 10000 <= asked).
Proof. intros z t m asked hn B Y H A E. split; [|lia]. pose proof (utc_text z t m hn B Y H) as D. replace (t * 1000 + hn / 10000 mod 1000) with (hn / 10000 - 1000) in D by lia. exact D. Qed.
Print Assumptions C77_torn_refuted.
Example C77_torn_nonvacuous : 10000000009999999 / 10000000 = 1000000000 /\ 10000000010000000 / 10000000 = 1000000000 + 1. Proof. split; reflexivity. Qed.
(** A local clock, in a zone of whole hours east of Greenwich. *)
Theorem C77_local_text : forall k t m hn, 0 <= k < 100 -> broken_down (3600 * k) t m -> 70 <= tm_year m <= 8099 -> 0 <= hn < 2 ^ 63 -> hn / 10000000 = t ->
  denotes (to_xml (3600 * k) (now true (3600 * k) m hn)) (hn / 10000).
Proof.
  intros k t m hn K B Y H E. pose proof (local_text (3600 * k) t m hn B Y H ltac:(lia)) as D. rewrite (Z.mul_comm 3600 k), Z.rem_mul, (Z.mul_comm k 3600) in D by lia.
  replace ((t + 0) * 1000 + hn / 10000 mod 1000) with (hn / 10000) in D by lia. exact D.
Qed.
Print Assumptions C77_local_text.
Example C77_local_text_nonvacuous : broken_down 7200 1000000000 (mkTm 101 8 0 9 3 46 40)
  /\ to_xml 7200 (now true 7200 (mkTm 101 8 0 9 3 46 40) 10000000000078910) = [50; 48; 48; 49; 45; 48; 57; 45; 48; 57; 84; 48; 51; 58; 52; 54; 58; 52; 48; 46; 48; 48; 55; 43; 48; 50; 58; 48; 48].
Proof. split; [unfold broken_down, real_date, real_time; cbn [tm_year tm_mon tm_mday tm_hour tm_min tm_sec]; change (month_length (1900 + 101) (8 + 1)) with 30; repeat (split; [lia|]); reflexivity|vm_compute; reflexivity]. Qed.
(** Refuted for the other zones: minutes beyond the hour are left out of the text, which denotes a
    time wrong by them; and an hour or more west of Greenwich the text denotes no time. *)
Theorem C77_local_refuted : forall z t m hn, broken_down z t m -> 70 <= tm_year m <= 8099 -> 0 <= hn < 2 ^ 63 -> hn / 10000000 = t ->
  (-3600 < z < 360000 -> denotes (to_xml z (now true z m hn)) (hn / 10000 + 1000 * Z.rem z 3600))
  /\ (-360000 < z <= -3600 -> forall a, ~ denotes (to_xml z (now true z m hn)) a).
Proof.
  intros z t m hn B Y H E. split; [|intros Z; exact (west_text z t m hn B Y H Z)]. intros Z. pose proof (local_text z t m hn B Y H Z) as D.
  set (r := Z.rem z 3600) in *. clearbody r. replace ((t + r) * 1000 + hn / 10000 mod 1000) with (hn / 10000 + 1000 * r) in D by lia. exact D.
Qed.
Print Assumptions C77_local_refuted.
(** 2001-09-08T20:46:40.000+18446744073709551611:00, in New York *)
Example C77_local_refuted_nonvacuous : broken_down (-18000) 1000000000 (mkTm 101 8 0 8 20 46 40) /\ Z.rem 19800 3600 = 1800
  /\ skipn 23 (to_xml (-18000) (now true (-18000) (mkTm 101 8 0 8 20 46 40) 10000000000000000)) = [43; 49; 56; 52; 52; 54; 55; 52; 52; 48; 55; 51; 55; 48; 57; 53; 53; 49; 54; 49; 49; 58; 48; 48].
Proof. split; [unfold broken_down, real_date, real_time; cbn [tm_year tm_mon tm_mday tm_hour tm_min tm_sec]; change (month_length (1900 + 101) (8 + 1)) with 30; repeat (split; [lia|]); reflexivity|]. split; vm_compute; reflexivity. Qed.

(** The time from one clock reading to a later one, in each unit, rounded down. *)
Theorem C77_elapsed : forall z a b, 0 <= st_hnano b <= st_hnano a -> st_hnano a < 2 ^ 63 ->
  let d := st_hnano a - st_hnano b in
  (milliseconds z a b = d / 10000 /\ seconds z a b = d / 10000000 /\ minutes z a b = d / 600000000 /\ hours z a b = d / 36000000000 /\ days z a b = d / 864000000000)
  /\ clock_elapsed z b a = d.
Proof. intros z a b B A. split; [apply units_later|apply elapsed]; unfold hn_ok; lia. Qed.
Print Assumptions C77_elapsed.
Theorem C77_add : forall z a n, 0 <= st_hnano a < 2 ^ 63 -> 0 <= st_hnano a / 10000 + n < 2 ^ 63 -> AddMilliSeconds z a n = st_hnano a / 10000 + n.
Proof. exact add_ms. Qed.
Print Assumptions C77_add.
Example C77_elapsed_nonvacuous : milliseconds 0 (tm_to_sm (mkTm 101 8 0 9 1 46 40) 10000000000078910) (tm_to_sm (mkTm 101 8 0 9 1 46 40) 10000000000000000) = 7.
Proof. reflexivity. Qed.
(** Refuted in the other direction: to an earlier reading the time is not negative, but more than
    50000 years whatever the two readings. *)
Theorem C77_elapsed_refuted : forall z a b, 0 <= st_hnano a < st_hnano b -> st_hnano b < 2 ^ 63 -> 922337203685477 <= milliseconds z a b.
Proof. intros z a b A B. rewrite ms_earlier by (unfold hn_ok; lia). change (2 ^ 64) with 18446744073709551616. change (2 ^ 63) with 9223372036854775808 in B. lia. Qed.
Print Assumptions C77_elapsed_refuted.
Example C77_elapsed_refuted_nonvacuous : milliseconds 0 (tm_to_sm (mkTm 101 8 0 9 1 46 40) 10000000000000000) (tm_to_sm (mkTm 101 8 0 9 1 46 40) 10000000000010000) = 1844674407370954.
Proof. vm_compute. reflexivity. Qed.

(** Refuted: the days between two clocks made from dates are those between the dates 1900 years
    and one month later; from 28 February to 1 March 2016 there are not 2 but 4. *)
Theorem C77_dates_refuted : (forall z y m d y' m' d', -86400 <= z <= 86400 -> 1000 <= y <= 9999 -> 1000 <= y' <= 9999 -> real_date (1900 + y) (m + 1) d -> real_date (1900 + y') (m' + 1) d' ->
    day_number (1900 + y) (m + 1) d <= day_number (1900 + y') (m' + 1) d' ->
    days z (of_date y' m' d') (of_date y m d) = day_number (1900 + y') (m' + 1) d' - day_number (1900 + y) (m + 1) d)
  /\ days 0 (of_date 2016 3 1) (of_date 2016 2 28) = 4 /\ day_number 2016 3 1 - day_number 2016 2 28 = 2.
Proof. split; [exact days_dates|]. split; vm_compute; reflexivity. Qed.
Print Assumptions C77_dates_refuted.
Example C77_dates_nonvacuous : real_date (1900 + 2016) (2 + 1) 28 /\ real_date (1900 + 2016) (3 + 1) 1.
Proof. unfold real_date. change (month_length (1900 + 2016) (2 + 1)) with 31. change (month_length (1900 + 2016) (3 + 1)) with 30. lia. Qed.

(** Refuted: the creation and modification times written in an mp4 file are not the seconds since
    1 January 1904, at any moment and in either version of the header: they are counted from
    1 February 3804. *)
Theorem C77_creation_refuted : forall version z t m hn, broken_down 0 t m -> 70 <= tm_year m <= 8099 -> 0 <= hn < 2 ^ 63 -> 0 <= t < 2 ^ 39 ->
  (version = 0 -> creation_field version z m hn = (t - epoch_second 3804 2 1 0 0 0) mod 2 ^ 32 /\ creation_field version z m hn <> (t - epoch_second 1904 1 1 0 0 0) mod 2 ^ 32)
  /\ (version = 1 -> creation_field version z m hn = (t - epoch_second 3804 2 1 0 0 0) mod 2 ^ 64 /\ creation_field version z m hn <> t - epoch_second 1904 1 1 0 0 0).
Proof.
  intros version z t m hn B Y H T. destruct (creation_wrong version z t m hn B Y H T) as [A C]. split; intros V.
  - destruct (A V) as [A1 A2]. split; [|exact A2]. rewrite A1. f_equal. set (e := epoch_second 3804 2 1 0 0 0). set (f := epoch_second 1904 1 1 0 0 0). clearbody e f. lia.
  - split; [|exact (C V)]. unfold creation_field. subst version. change (1 =? 1) with true. cbv iota. apply mp4now_is; assumption.
Qed.
Print Assumptions C77_creation_refuted.
(** 9 September 2001, 01:46:40, is written as 12 January 2007, 20:22:24 *)
Example C77_creation_nonvacuous : creation_field 0 0 (mkTm 101 8 0 9 1 46 40) 10000000000000000 = epoch_second 2007 1 12 20 22 24 - epoch_second 1904 1 1 0 0 0.
Proof. vm_compute. reflexivity. Qed.

(** A clock read from text: each number is where it belongs although each was stored over two
    fields, *)
Theorem C77_of_text : forall mem y m d h mi s ms, length mem = 24%nat -> Forall (fun x => 0 <= x < 65536) [y; m; d; h; mi; s; ms] ->
  let c := of_text mem y m d h mi s ms in
  wYear c = y /\ wMonth c = m /\ wDay c = d /\ wHour c = h /\ wMinute c = mi /\ wSecond c = s /\ wMilliseconds c = ms
  /\ (h < 100 -> mi < 100 -> s < 100 -> to_time_string c = digits 2 h ++ [58] ++ digits 2 mi ++ [58] ++ digits 2 s).
Proof.
  intros mem y m d h mi s ms L F. destruct (of_text_fields mem y m d h mi s ms L F) as (k & E & _). cbv zeta. rewrite E. cbn [wYear wMonth wDay wHour wMinute wSecond wMilliseconds].
  rewrite Forall_forall in F. assert (F1 := F h). assert (F2 := F mi). assert (F3 := F s). cbn [In] in F1, F2, F3. cbv beta in F1, F2, F3.
  do 7 (split; [reflexivity|]). intros A B C. unfold to_time_string, sm_to_tm. cbn [wYear wMonth wDayOfWeek wDay wHour wMinute wSecond tm_hour tm_min tm_sec].
  rewrite !two_digits by (split; [apply F1 || apply F2 || apply F3; auto 10|assumption]). reflexivity.
Qed.
Print Assumptions C77_of_text.
(** Refuted: but the date it prints is another, for every date; and its instant depends on what
    the memory held before. *)
Theorem C77_of_text_refuted : (forall mem y m d h mi s ms, length mem = 24%nat -> Forall (fun x => 0 <= x < 65536) [y; m; d; h; mi; s; ms] -> 1000 <= y <= 8099 -> 1 <= m <= 12 -> 1 <= d <= 31 ->
    to_date_string (of_text mem y m d h mi s ms) = digits 4 (1900 + y) ++ [45] ++ digits 2 (m + 1) ++ [45] ++ digits 2 d
    /\ to_date_string (of_text mem y m d h mi s ms) <> digits 4 y ++ [45] ++ digits 2 m ++ [45] ++ digits 2 d)
  /\ exists mem mem', length mem = 24%nat /\ length mem' = 24%nat /\ TotalHNano 0 (of_text mem 2016 3 4 5 6 7 8) <> TotalHNano 0 (of_text mem' 2016 3 4 5 6 7 8).
Proof.
  split.
  - intros mem y m d h mi s ms L F Y M D. destruct (of_text_fields mem y m d h mi s ms L F) as (k & E & _). rewrite E.
    assert (W : to_date_string (mkSt y m 0 d h mi s ms (65536 * k)) = digits 4 (1900 + y) ++ [45] ++ digits 2 (m + 1) ++ [45] ++ digits 2 d).
    { unfold to_date_string, sm_to_tm. cbn [wYear wMonth wDayOfWeek wDay wHour wMinute wSecond tm_year tm_mon tm_mday]. rewrite !two_digits by lia. rewrite dec_4 by lia. reflexivity. }
    rewrite W. split; [reflexivity|]. intros Q. apply app_len_inj in Q; [|rewrite !digits_len; reflexivity]. destruct Q as [Q _]. apply digits_inj in Q; [lia| |]; change (10 ^ Z.of_nat 4) with 10000; lia.
  - exists (repeat 0 24), (repeat 1 24). split; [reflexivity|]. split; [reflexivity|]. vm_compute. discriminate.
Qed.
Print Assumptions C77_of_text_refuted.
Example C77_of_text_nonvacuous : of_text (repeat 255 24) 2016 3 4 5 6 7 8 = mkSt 2016 3 0 4 5 6 7 8 (2 ^ 64 - 65536). Proof. reflexivity. Qed.
