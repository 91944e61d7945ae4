(** Property C16: duration text. *)
From Coq Require Import String.
From Verif Require Import Util Dec_spec Str_model HNano_model HNano_proofs.
Local Open Scope Z_scope.

(** Every non-negative duration prints as h:mm:ss.mmm, and the text determines the
    duration up to its sub-millisecond remainder. *)
Theorem C16_text_value : forall n, 0 <= n < 2 ^ 63 -> exists t h m s ms,
  hns n = Some t /\ clock t h m s ms /\ 0 <= m < 60 /\ 0 <= s < 60 /\ 0 <= ms < 1000
  /\ ((h * 60 + m) * 60 + s) * 1000 + ms = n / 10000.
Proof.
  intros n Hn. exists (to_string n), (hH n), (hM n), (hS n), (hML n).
  unfold hns. destruct (Z.ltb_spec n 0); [lia|]. rewrite Z.mul_1_r.
  split; [reflexivity|]. split; [apply to_string_clock; lia|].
  destruct (fields_ok n ltac:(lia)) as (A & B & C & D & E). repeat split; lia.
Qed.
Print Assumptions C16_text_value.
(** A clock text has a single reading, so two durations print alike exactly when
    they agree to the millisecond. *)
Theorem C16_text_injective : forall n n', 0 <= n < 2 ^ 63 -> 0 <= n' < 2 ^ 63 ->
  (hns n = hns n' <-> n / 10000 = n' / 10000).
Proof.
  intros n n' H H'. unfold hns. destruct (Z.ltb_spec n 0); [lia|]. destruct (Z.ltb_spec n' 0); [lia|]. rewrite !Z.mul_1_r.
  destruct (fields_ok n ltac:(lia)) as (A & B & C & D & E). destruct (fields_ok n' ltac:(lia)) as (A' & B' & C' & D' & E').
  split.
  - intros [= T]. pose proof (to_string_clock n ltac:(lia)) as K. pose proof (to_string_clock n' ltac:(lia)) as K'. rewrite T in K.
    destruct (clock_unique _ _ _ _ _ _ _ _ _ K K') as (Q1 & Q2 & Q3 & Q4). lia.
  - intros Q. f_equal. unfold to_string.
    assert (hH n = hH n' /\ hM n = hM n' /\ hS n = hS n' /\ hML n = hML n') as (Q1 & Q2 & Q3 & Q4) by lia.
    rewrite Q1, Q2, Q3, Q4. reflexivity.
Qed.
Print Assumptions C16_text_injective.
(** Negative durations: a minus sign and the text of the opposite, except the
    smallest 64-bit value where the negation overflows. *)
Theorem C16_negative : forall n, - 2 ^ 63 < n < 0 -> exists t, hns (- n) = Some t /\ hns n = Some (45 :: t).
Proof.
  intros n H. exists (to_string (- n)). unfold hns. destruct (Z.ltb_spec (- n) 0); [lia|]. destruct (Z.ltb_spec n 0); [|lia].
  destruct (Z.eqb_spec n (- 2 ^ 63)); [lia|]. rewrite Z.mul_1_r. split; [reflexivity|]. repeat f_equal. lia.
Qed.
Print Assumptions C16_negative.
Theorem C16_int64_min_refuted : exists n, in_int64 n /\ hns n = None.
Proof. exists (- 2 ^ 63). split; [unfold in_int64; lia|reflexivity]. Qed.
Print Assumptions C16_int64_min_refuted.
(** A duration built from hours, minutes, seconds and milliseconds gives them back
    and fits an int64 for every hour count up to 256 million. *)
Theorem C16_components : forall H M S ML, 0 <= H < 256000000 -> 0 <= M < 60 -> 0 <= S < 60 -> 0 <= ML < 1000 ->
  in_int64 (hnano H M S ML) /\
  hH (hnano H M S ML) = H /\ hM (hnano H M S ML) = M /\ hS (hnano H M S ML) = S /\ hML (hnano H M S ML) = ML.
Proof. intros. split; [unfold in_int64, hnano, SEC, HU; lia|apply ctor_fields; lia]. Qed.
Print Assumptions C16_components.
Example C16_nonvacuous : hns 36615123456 = Some (str "01:01:01.512") /\ hns (-50000) = Some (str "-00:00:00.005")
  /\ hnano 1 1 1 512 = 36615120000.
Proof. repeat split; vm_compute; reflexivity. Qed.
