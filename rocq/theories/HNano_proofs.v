From Verif Require Import Util Dec_spec Dec_lemmas Str_model HNano_model.
Local Open Scope Z_scope.
Local Ltac Zify.zify_post_hook ::= Z.to_euclidean_division_equations.

Lemma digit_ok x : 0 <= x < 10 -> is_digit (48 + x).
Proof. unfold is_digit. lia. Qed.
Lemma dsg x : 0 <= x -> dec_signed x = dec x.
Proof. intros H. unfold dec_signed. destruct (Z.ltb_spec x 0); [lia|reflexivity]. Qed.
Lemma pad2 x : 0 <= x < 100 -> let t := pad 10 x ++ dec_signed x in Forall is_digit t /\ length t = 2%nat /\ undec t = x.
Proof.
  intros H. cbv zeta. rewrite dsg by lia. unfold pad. destruct (Z.ltb_spec x 10).
  - rewrite dec_1 by lia. cbn [app]. repeat split; [|unfold undec; cbn [fold_left]; lia].
    repeat constructor; unfold is_digit; lia.
  - rewrite dec_2 by lia. cbn [app]. repeat split; [|unfold undec; cbn [fold_left]; lia].
    repeat constructor; apply digit_ok; lia.
Qed.
Lemma pad2' x : 0 <= x -> let t := pad 10 x ++ dec_signed x in Forall is_digit t /\ (2 <= length t)%nat /\ undec t = x.
Proof.
  intros H. destruct (Z.ltb_spec x 100) as [L|L].
  - destruct (pad2 x ltac:(lia)) as (A & B & C). cbv zeta. rewrite B. auto.
  - cbv zeta. rewrite dsg by lia. unfold pad. destruct (Z.ltb_spec x 10); [lia|]. cbn [app].
    destruct (dec_ok x H) as (A & B & C). split; [exact B|]. split; [|exact A]. apply dec_length2. lia.
Qed.
Lemma pad3 x : 0 <= x < 1000 -> let t := pad 10 x ++ pad 100 x ++ dec_signed x in Forall is_digit t /\ length t = 3%nat /\ undec t = x.
Proof.
  intros H. cbv zeta. rewrite dsg by lia. unfold pad. destruct (Z.ltb_spec x 10), (Z.ltb_spec x 100); try lia.
  - rewrite dec_1 by lia. cbn [app]. repeat split; [|unfold undec; cbn [fold_left]; lia].
    repeat constructor; unfold is_digit; lia.
  - rewrite dec_2 by lia. cbn [app]. repeat split; [|unfold undec; cbn [fold_left]; lia].
    repeat constructor; unfold is_digit; lia.
  - rewrite dec_3 by lia. cbn [app]. repeat split; [|unfold undec; cbn [fold_left]; lia].
    repeat constructor; unfold is_digit; lia.
Qed.
Lemma fields_ok n : 0 <= n -> 0 <= hM n < 60 /\ 0 <= hS n < 60 /\ 0 <= hML n < 1000 /\ 0 <= hH n
  /\ (hH n * 3600 + hM n * 60 + hS n) * 1000 + hML n = n / 10000.
Proof. intros H. unfold hH, hM, hS, hML, SEC, HU, MILLY. lia. Qed.
Lemma to_string_clock n : 0 <= n -> clock (to_string n) (hH n) (hM n) (hS n) (hML n).
Proof.
  intros H. destruct (fields_ok n H) as (A & B & C & D & _).
  destruct (pad2' _ D) as (h1 & h2 & h3). destruct (pad2 (hM n) ltac:(lia)) as (m1 & m2 & m3).
  destruct (pad2 (hS n) ltac:(lia)) as (s1 & s2 & s3). destruct (pad3 (hML n) ltac:(lia)) as (l1 & l2 & l3).
  unfold clock, to_string.
  exists (pad 10 (hH n) ++ dec_signed (hH n)), (pad 10 (hM n) ++ dec_signed (hM n)), (pad 10 (hS n) ++ dec_signed (hS n)), (pad 10 (hML n) ++ pad 100 (hML n) ++ dec_signed (hML n)).
  split; [rewrite <- !app_assoc; reflexivity|]. tauto.
Qed.

(** a clock text has only one reading *)
Lemma split_at_unique (c : Z) a b a' b' : ~ In c a -> ~ In c a' -> a ++ c :: b = a' ++ c :: b' -> a = a' /\ b = b'.
Proof.
  revert a'. induction a as [|x a IH]; intros [|y a'] Ha Ha' E; cbn in *.
  - injection E as ->. auto.
  - injection E as -> E. exfalso. apply Ha'. auto.
  - injection E as -> E. exfalso. apply Ha. auto.
  - injection E as -> E. destruct (IH a') as [-> ->]; auto.
Qed.
Lemma nd (c : Z) l : (c < 48 \/ 57 < c) -> Forall is_digit l -> ~ In c l.
Proof. intros H F. apply digit_not; [unfold is_digit; lia|exact F]. Qed.
Lemma clock_unique t h m s ms h' m' s' ms' : clock t h m s ms -> clock t h' m' s' ms' -> h = h' /\ m = m' /\ s = s' /\ ms = ms'.
Proof.
  intros (a & b & c & d & E & Da & Db & Dc & Dd & _ & _ & _ & _ & Ha & Hb & Hc & Hd)
         (a' & b' & c' & d' & E' & Da' & Db' & Dc' & Dd' & _ & _ & _ & _ & Ha' & Hb' & Hc' & Hd').
  rewrite E in E'. cbn [app] in E'.
  apply split_at_unique in E'; try (apply nd; [lia|auto]). destruct E' as [-> E'].
  apply split_at_unique in E'; try (apply nd; [lia|auto]). destruct E' as [-> E'].
  apply split_at_unique in E'; try (apply nd; [lia|auto]). destruct E' as [-> ->].
  repeat split; congruence.
Qed.
Lemma ctor_fields H M S ML : 0 <= H -> 0 <= M < 60 -> 0 <= S < 60 -> 0 <= ML < 1000 ->
  hH (hnano H M S ML) = H /\ hM (hnano H M S ML) = M /\ hS (hnano H M S ML) = S /\ hML (hnano H M S ML) = ML.
Proof. intros. unfold hH, hM, hS, hML, hnano, SEC, HU, MILLY. lia. Qed.
