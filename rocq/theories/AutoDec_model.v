(** Model of the decoding times made up from presentation times: get_auto_decoding_duration and
    compute_auto_decoding_time of /repo/src/mg/media/mp4write.h 1161-1214, 1268-1343.  The debug
    assertions and the _DEBUG loop (1192-1207, which finds the same element when times are
    distinct) are not modelled. *)
From Verif Require Import Util SampleTab_model.
Local Open Scope Z_scope.

(** std::sort 1277 (any sort of integers gives this list) *)
Fixpoint insert (x : Z) (l : list Z) : list Z := match l with [] => [x] | y :: r => if x <=? y then x :: l else y :: insert x r end.
Fixpoint sort (l : list Z) : list Z := match l with [] => [] | x :: r => insert x (sort r) end.
(** std::lower_bound, and the element before the one found: 1163-1177, 1190 *)
Fixpoint before (x : Z) (prev : option Z) (v : list Z) : option (option Z) :=
  match v with
  | [] => None                                     (* not found *)
  | y :: v => if y <? x then before x (Some y) v else if y =? x then Some prev else None
  end.
(** get_auto_decoding_duration 1161-1214 *)
Definition gap (v : list Z) (x : Z) : Z := match before x None v with Some (Some p) => u64 (x - p) | _ => 0 end.
(** loop 1291-1340: decoding times, offset *)
Fixpoint auto_loop (v : list Z) (tot off : Z) (l : list Z) : list Z * Z :=
  match l with
  | [] => ([], off)
  | c :: l =>
    let tot := u64 (tot + gap v c) in
    let off := if (c <? tot) && (off <? u64 (tot - c)) then u64 (tot - c) else off in
    let '(ds, off) := auto_loop v tot off l in (tot :: ds, off)
  end.
(** compute_auto_decoding_time 1268-1343: from the composition times in decoding order, the
    decoding times and the composition offset (set_ctts_offset) *)
Definition auto_decoding (l : list Z) : list Z * Z :=
  match sort l with [] => ([], 0) | m :: _ => auto_loop (sort l) m 0 l end.

(** * Specification vocabulary *)
(** [p] is the presentation time just before [x] among those of [l] *)
Definition just_before (l : list Z) (p x : Z) : Prop := In p l /\ p < x /\ forall y, In y l -> y < x -> y <= p.
(** [m] is the earliest *)
Definition earliest (l : list Z) (m : Z) : Prop := In m l /\ forall y, In y l -> m <= y.
Definition latest (l : list Z) (m : Z) : Prop := In m l /\ forall y, In y l -> y <= m.
(** presentation times far from wrapping around: the sum of all the gaps fits *)
Definition modest (l : list Z) : Prop := Forall (fun c => 0 <= c) l /\ forall c, In c l -> c * (Z.of_nat (length l) + 1) < 2 ^ 64.
