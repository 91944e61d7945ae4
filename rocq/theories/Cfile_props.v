(** C88: what is written to a file and read from it.  Statements only; see Cfile_model for the vocabulary. *)
From Coq Require Import Permutation.
From Verif Require Import Util Cfile_model Cfile_proofs.
Local Open Scope Z_scope.

(** Writes one after another, none waited for: in whatever order the system carries them out, the file
    holds their bytes one after another from the position on, and what it held elsewhere. *)
Theorem C88_written : forall h l order c, 0 <= h_pos h -> Permutation (snd (writes h l)) order ->
  all_done c order = overwritten c (Z.to_nat (h_pos h)) (concat l) /\ h_pos (fst (writes h l)) = h_pos h + zlen (concat l).
Proof. exact written. Qed.
Print Assumptions C88_written.
Example C88_written_nonvacuous : Permutation (snd (writes (mkH 2 5) [[10; 11]; [12]; [13; 14]])) [Put 5 [13; 14]; Put 2 [10; 11]; Put 4 [12]] /\ all_done [1; 2; 3; 4; 5] [Put 5 [13; 14]; Put 2 [10; 11]; Put 4 [12]] = [1; 2; 10; 11; 12; 13; 14].
Proof. split; [|vm_compute; reflexivity]. cbn. apply (Permutation_middle [Put 2 [10; 11]; Put 4 [12]] [] (Put 5 [13; 14])) || (symmetry; apply (Permutation_middle [Put 2 [10; 11]; Put 4 [12]] [] (Put 5 [13; 14]))). Qed.
(** A new file. *)
Theorem C88_created : forall l order, Permutation (snd (writes (mkH 0 0) l)) order -> all_done [] order = concat l /\ size (fst (writes (mkH 0 0) l)) = zlen (concat l).
Proof. exact created. Qed.
Print Assumptions C88_created.
Example C88_created_nonvacuous : all_done [] (snd (writes (mkH 0 0) [[1]; [2; 3]; [4; 5]])) = [1; 2; 3; 4; 5] /\ size (fst (writes (mkH 0 0) [[1]; [2; 3]; [4; 5]])) = 5.
Proof. split; vm_compute; reflexivity. Qed.
(** Any writes, the position moved in between, as long as no byte is written twice: the order in which
    they are carried out doesn't matter. *)
Theorem C88_disjoint : forall rs order, Permutation rs order -> (forall p x, In (Put p x) rs -> 0 <= p) -> each_pair disjoint rs -> forall c, all_done c rs = all_done c order.
Proof. exact disjoint_any_order. Qed.
Print Assumptions C88_disjoint.
Example C88_disjoint_nonvacuous : each_pair disjoint [Put 4 [1; 2]; Put 0 [3; 4; 5; 6]; Put 8 [7]] /\ all_done [] [Put 4 [1; 2]; Put 0 [3; 4; 5; 6]; Put 8 [7]] = [3; 4; 5; 6; 1; 2; 0; 0; 7] /\ all_done [] [Put 8 [7]; Put 4 [1; 2]; Put 0 [3; 4; 5; 6]] = [3; 4; 5; 6; 1; 2; 0; 0; 7].
Proof. split; [|split; vm_compute; reflexivity]. cbn [each_pair]. split; [|split; [|split; [constructor|exact Logic.I]]]; repeat (apply Forall_cons; [unfold disjoint, zlen; cbn [length]; lia|]); apply Forall_nil. Qed.
(** Refuted for bytes written twice: after moving back to [p], the bytes there are the old or the new
    ones, depending on which write is carried out first. *)
Theorem C88_twice_refuted : forall p s c x y, 0 <= p -> length x = length y -> x <> y ->
  let a := write (mkH p s) x in let b := write (set_position (fst a) p) y in
  Permutation [snd a; snd b] [snd b; snd a] /\ firstn (length y) (skipn (Z.to_nat p) (all_done c [snd a; snd b])) = y /\ firstn (length y) (skipn (Z.to_nat p) (all_done c [snd b; snd a])) = x.
Proof. exact written_twice. Qed.
Print Assumptions C88_twice_refuted.
Example C88_twice_nonvacuous : all_done [] [Put 0 [0; 0; 0; 0]; Put 4 [7]; Put 0 [0; 0; 0; 9]] = [0; 0; 0; 9; 7] /\ all_done [] [Put 4 [7]; Put 0 [0; 0; 0; 9]; Put 0 [0; 0; 0; 0]] = [0; 0; 0; 0; 7].
Proof. split; vm_compute; reflexivity. Qed.
(** Refuted: all the bytes given are written.  If the system writes only the first [k] bytes of a write,
    the rest of them isn't written again, and a new file has zeros there. *)
Theorem C88_short_refuted : forall x y k, (k < length x)%nat -> y <> [] -> (0 < k)%nat ->
  let a := write (mkH 0 0) x in let b := write (fst a) y in snd a = Put 0 x /\ all_done [] [Put 0 (firstn k x); snd b] = firstn k x ++ repeat 0 (length x - k) ++ y.
Proof. exact short_write. Qed.
Print Assumptions C88_short_refuted.
Example C88_short_nonvacuous : all_done [] [Put 0 (firstn 2 [1; 2; 3; 4]); snd (write (fst (write (mkH 0 0) [1; 2; 3; 4])) [5; 6])] = [1; 2; 0; 0; 5; 6].
Proof. vm_compute. reflexivity. Qed.
(** The size reported during writes one after another, in a new file or over one, is what the file will
    have. *)
Theorem C88_size : forall h l order c, 0 <= h_pos h <= h_stat h -> h_stat h = zlen c -> Permutation (snd (writes h l)) order -> size (fst (writes h l)) = zlen (all_done c order).
Proof. exact size_written. Qed.
Print Assumptions C88_size.
Example C88_size_nonvacuous : size (fst (writes (mkH 2 5) [[10]; [11]])) = 5 /\ size (fst (writes (mkH 2 5) [[10; 11]; [12; 13]])) = 6.
Proof. split; reflexivity. Qed.
(** Refuted after moving back: it is the position, or the size when the file was opened, whichever is
    more; in a new file of which [p] = 0 is the position, nothing, and the end of the file is reported. *)
Theorem C88_size_refuted : forall l p, 0 <= p < zlen (concat l) -> let h := set_position (fst (writes (mkH 0 0) l)) p in size h = p /\ eof h = true /\ forall order, Permutation (snd (writes (mkH 0 0) l)) order -> p < zlen (all_done [] order).
Proof. exact size_back. Qed.
Print Assumptions C88_size_refuted.
Example C88_size_refuted_nonvacuous : 0 <= 1 < zlen (concat [[1]; [2; 3]; [4; 5]]). Proof. cbn. unfold zlen. cbn. lia. Qed.

(** Reads one after another of a file that doesn't change: whatever their sizes they hand on its bytes from
    the position on, each once, and nothing after the last; the position is after the bytes handed on, and
    the end is reported exactly when all were. *)
Theorem C88_read : forall l h c, 0 <= h_pos h <= h_stat h -> h_stat h = zlen c -> Forall (fun n => 0 < n < 2 ^ 32) l ->
  concat (map (answer c) (snd (reads h l))) = firstn (Z.to_nat (sum l)) (skipn (Z.to_nat (h_pos h)) c)
  /\ h_pos (fst (reads h l)) = Z.min (h_pos h + sum l) (zlen c) /\ (eof (fst (reads h l)) = true <-> zlen c <= h_pos h + sum l).
Proof. exact read_whole. Qed.
Print Assumptions C88_read.
Example C88_read_nonvacuous : map (answer [1; 2; 3; 4; 5]) (snd (reads (mkH 1 5) [2; 1; 7; 3])) = [[2; 3]; [4]; [5]; []] /\ eof (fst (reads (mkH 1 5) [2; 1; 7])) = true /\ eof (fst (reads (mkH 1 5) [2; 1])) = false.
Proof. repeat split; vm_compute; reflexivity. Qed.
(** Also of a file that became shorter, or longer, as long as they are within the size it had. *)
Theorem C88_read_inside : forall l h c, 0 <= h_pos h -> Forall (fun n => 0 < n < 2 ^ 32) l -> h_pos h + sum l <= h_stat h ->
  concat (map (answer c) (snd (reads h l))) = firstn (Z.to_nat (sum l)) (skipn (Z.to_nat (h_pos h)) c) /\ h_pos (fst (reads h l)) = h_pos h + sum l.
Proof. intros l h c A F S. destruct (reads_inside l h c A F S) as [E1 E2]. rewrite E1. split; [exact E2|reflexivity]. Qed.
Print Assumptions C88_read_inside.
Example C88_read_inside_nonvacuous : map (answer [1; 2; 3]) (snd (reads (mkH 0 6) [2; 2; 2])) = [[1; 2]; [3]; []]. Proof. vm_compute. reflexivity. Qed.
(** Refuted for a file that grew since it was opened: a read over the size it had hands on bytes after it,
    and the position is that size: the next read hands them on again, ... *)
Theorem C88_grown_refuted : forall h c m k, 0 <= h_pos h < h_stat h -> h_stat h < h_pos h + m -> 0 < m < 2 ^ 32 -> 0 < k < 2 ^ 32 -> h_stat h < zlen c ->
  let '(h1, a) := read h m in let '(h2, b) := read h1 k in let old := Z.to_nat (h_stat h - h_pos h) in
  eof h1 = true /\ h_pos h1 = h_stat h /\ answer c a = firstn old (skipn (Z.to_nat (h_pos h)) c) ++ firstn (Z.to_nat m - old) (skipn (Z.to_nat (h_stat h)) c)
  /\ answer c b = firstn (Z.to_nat k) (skipn (Z.to_nat (h_stat h)) c) /\ hd_error (answer c b) = nth_error (answer c a) old /\ hd_error (answer c b) <> None.
Proof. exact read_grown. Qed.
Print Assumptions C88_grown_refuted.
Example C88_grown_nonvacuous : map (answer [1; 2; 3; 4; 5; 6; 7; 8]) (snd (reads (mkH 0 5) [3; 3; 3; 3])) = [[1; 2; 3]; [4; 5; 6]; [6; 7; 8]; [6; 7; 8]]. Proof. vm_compute. reflexivity. Qed.
(** ... and so does every read after it. *)
Theorem C88_again_refuted : forall h l, h_pos h = h_stat h -> 0 <= h_stat h -> Forall (fun n => 0 < n < 2 ^ 32) l -> reads h l = (h, map (Get (h_stat h)) l).
Proof. intros h l A B F. exact (reads_at_end l h A B F). Qed.
Print Assumptions C88_again_refuted.
Example C88_again_nonvacuous : map (answer [1; 2; 3; 4; 5; 6; 7; 8]) (snd (reads (mkH 5 5) [2; 2; 2])) = [[6; 7]; [6; 7]; [6; 7]]. Proof. vm_compute. reflexivity. Qed.
