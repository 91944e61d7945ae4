(** Property C43: looking a key up in the sorted range table. *)
From Coq Require Import ZifyNat.
From Verif Require Import Util RangeMap_model RangeMap_proofs.
Local Open Scope Z_scope.

(** In a non-empty table with increasing keys the search ends; it finds the first entry whose
    key is not below the one asked, or the last entry if there is none; the code tells whether
    the key is before the first (-1), after the last (1) or neither (0). *)
Theorem C43_lookup : forall {A} (d : A) m k, increasing d m -> m <> [] -> exists ret i, rm_get d m k = Some (ret, i) /\ (i < length m)%nat
  /\ ((ret = 1 /\ i = (length m - 1)%nat /\ key d m i < k) \/ (ret <> 1 /\ k <= key d m i /\ forall j, (j < i)%nat -> key d m j < k))
  /\ (ret = -1 <-> k < key d m 0) /\ (ret = 1 <-> key d m (length m - 1) < k).
Proof. exact @rm_get_ok. Qed.
Print Assumptions C43_lookup.
Example C43_nonvacuous : let m := [(3, 0); (5, 1); (9, 2); (10, 3); (20, 4); (21, 5); (40, 6)] in increasing 0 m
  /\ map (rm_get 0 m) [2; 3; 4; 9; 10; 11; 21; 39; 40; 41] = [Some (-1, 0%nat); Some (0, 0%nat); Some (0, 1%nat); Some (0, 2%nat); Some (0, 3%nat); Some (0, 4%nat); Some (0, 5%nat); Some (0, 6%nat); Some (0, 6%nat); Some (1, 6%nat)].
Proof.
  split; [|reflexivity]. intros i j H. cbn [length] in H. unfold key.
  do 7 (destruct i as [|i]; [do 7 (destruct j as [|j]; [cbn; lia|]); lia|]). lia.
Qed.
(** Refuted for an empty table: the first entry is read all the same. *)
Theorem C43_empty_refuted : forall {A} (d : A) k, rm_get d [] k = None.
Proof. reflexivity. Qed.
Print Assumptions C43_empty_refuted.
