(** Model of HundredNano and hns, /repo/src/mg/media/hnano.h lines 31-125: durations in
    units of 100 ns.  int64 arithmetic; C division truncates.  Text is a list of
    character codes. *)
From Coq Require Import String.
From Verif Require Import Util Dec_spec Str_model.
Local Open Scope Z_scope.

Definition SEC := 10000000.  (* hnano.h 35-37 *)
Definition HU := 10000.
Definition MILLY := 1000.
Definition in_int64 (x : Z) : Prop := - 2 ^ 63 <= x < 2 ^ 63.

(** hnano.h 41-48 *)
Definition hnano (H M S ML : Z) : Z := H * 60 * 60 * SEC + M * 60 * SEC + S * SEC + ML * HU.
(** hnano.h 55-74 *)
Definition hH (n : Z) : Z := Z.quot (Z.quot n (SEC * 60)) 60.
Definition hM (n : Z) : Z := Z.rem (Z.quot n (SEC * 60)) 60.
Definition hS (n : Z) : Z := Z.rem (Z.quot n SEC) 60.
Definition hML (n : Z) : Z := Z.rem (Z.quot n HU) MILLY.

Definition pad (limit x : Z) : list Z := if x <? limit then [48] else [].
(** hnano.h 83-108 *)
Definition to_string (n : Z) : list Z :=
  pad 10 (hH n) ++ dec_signed (hH n) ++ [58] ++
  pad 10 (hM n) ++ dec_signed (hM n) ++ [58] ++
  pad 10 (hS n) ++ dec_signed (hS n) ++ [46] ++
  pad 10 (hML n) ++ pad 100 (hML n) ++ dec_signed (hML n).

(** hnano.h 112-125: None = signed overflow of x * -1 (undefined behaviour). *)
Definition hns (x : Z) : option (list Z) :=
  if x <? 0 then (if x =? - 2 ^ 63 then None else Some (45 :: to_string (x * -1))) else Some (to_string (x * 1)).

(** * Specification vocabulary: reading a time text h:m:s.ms. *)
(** [clock t h m s ms]: t is "<digits of h, at least 2>:<2 digits>:<2 digits>.<3 digits>" *)
Definition clock (t : list Z) (h m s ms : Z) : Prop := exists th tm ts tms,
  t = th ++ [58] ++ tm ++ [58] ++ ts ++ [46] ++ tms
  /\ Forall is_digit th /\ Forall is_digit tm /\ Forall is_digit ts /\ Forall is_digit tms
  /\ (2 <= length th)%nat /\ length tm = 2%nat /\ length ts = 2%nat /\ length tms = 3%nat
  /\ undec th = h /\ undec tm = m /\ undec ts = s /\ undec tms = ms.
