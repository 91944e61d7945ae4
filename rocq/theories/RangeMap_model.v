(** Model of the sorted range table, /repo/src/mg/media/mp4parse.h 71-240 (the XVEC variant,
    which line 50 selects).  32-bit indices do not wrap (fewer than 2^32 entries). *)
From Verif Require Import Util.
Local Open Scope Z_scope.

Definition table (A : Type) := list (Z * A).
Definition key {A} (d : A) (m : table A) (i : nat) : Z := fst (nth i m (0, d)).
Definition val {A} (d : A) (m : table A) (i : nat) : A := snd (nth i m (0, d)).
(** add 121-123 *)
Definition rm_add {A} (k : Z) (v : A) (m : table A) : table A := m ++ [(k, v)].
(** 183-215: None = still looping when the fuel is spent *)
Fixpoint search {A} (d : A) (m : table A) (k : Z) (fuel idx lower upper : nat) : option nat :=
  match fuel with
  | O => None
  | S f =>
    if (idx <? length m)%nat && (((0 <? idx)%nat && ((k <=? key d m (idx - 1)) || (key d m idx <? k))) || (key d m idx <? k)) then
      let upper := if (0 <? idx)%nat && (k <=? key d m (idx - 1)) then (idx - 1)%nat else upper in
      let lower := if key d m idx <? k then (if (lower =? idx)%nat then (lower + 1)%nat else idx) else lower in
      let idx := if (lower <? upper)%nat then ((upper - lower) / 2 + lower)%nat else lower in
      search d m k f idx lower upper
    else Some idx
  end.
(** get 163-223: return code, the index found (the value is there, _last_start_range its key);
    None = an empty table is read or the loop does not end *)
Definition rm_get {A} (d : A) (m : table A) (k : Z) : option (Z * nat) :=
  match m with
  | [] => None
  | _ =>
    if k <? key d m 0 then Some (-1, 0%nat)
    else if key d m (length m - 1) <? k then Some (1, (length m - 1)%nat)
    else match search d m k (length m + 1) (length m / 2)%nat 0 (length m - 1) with Some i => Some (0, i) | None => None end
  end.

(** * Specification vocabulary *)
Definition increasing {A} (d : A) (m : table A) : Prop := forall i j, (i < j < length m)%nat -> key d m i < key d m j.
