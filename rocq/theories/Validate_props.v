(** C86: checking that fragments hold every sample.  Statements only; see Validate_model for the
    vocabulary. *)
From Coq Require Import List ZArith Lia Bool.
From Verif Require Import Util Validate_model Validate_proofs.
Import ListNotations.
Local Open Scope Z_scope.

(** For every history of calls: nothing is reported exactly if every sample used after another one
    of its stream is the one after it, or the first one after the last one of a file. *)
Theorem C86_silent : forall cs, Forall possible cs ->
  (validate cs = Some [] <-> forall p s b q a, cs = p ++ Using s b :: q -> last_used s p = Some a -> follows a b (last_total s p)).
Proof. exact silent_iff. Qed.
Print Assumptions C86_silent.
(** What is reported when a sample is used, after any calls *)
Theorem C86_reports : forall p s b, Forall possible p -> possible (Using s b) -> exists out, validate p = Some out /\ validate (p ++ [Using s b]) = Some (out ++
  match last_used s p with
  | None => []
  | Some a =>
    if b =? 0 then match last_total s p with Some t => if t =? a + 1 then [] else [MissingAtTheEnd t a] | None => [MissingAtTheEnd (2 ^ 64 - 1) a] end
    else if b =? a + 1 then [] else [MissingInTheMiddle (b - 1) a]
  end).
Proof. intros p s b F P. exact (validate_snoc p (Using s b) F P). Qed.
Print Assumptions C86_reports.
(** The streams do not disturb each other: nothing is reported exactly if nothing is reported for
    each stream on its own. *)
Theorem C86_streams : forall cs, Forall possible cs -> (validate cs = Some [] <-> forall s, 0 <= s < 16 -> validate (of_stream s cs) = Some []).
Proof. exact streams_iff. Qed.
Print Assumptions C86_streams.
(** No false alarm: for any number of streams, each made of any number of files (or bit rates) cut
    into any pieces without loss, whatever the order in which the streams are worked on, nothing is
    reported. *)
Theorem C86_files : forall cs, (forall s, exists fs, of_stream s cs = concat (map (file_calls s) fs) /\ Forall well_cut fs) ->
  Forall (fun c => match c with Using s _ => 0 <= s < 16 | Finished s _ => 0 <= s < 16 end) cs -> validate cs = Some [].
Proof. exact streams_silent. Qed.
Print Assumptions C86_files.
(** Two files of the stream 3, of 4 and of 2 samples, with an empty piece; the first in the middle
    of the calls of stream 0 *)
Definition ex_a : list (list Z) := [[0; 1]; []; [2; 3]].
Definition ex_b : list (list Z) := [[0]; [1]].
Definition ex_c : list (list Z) := [[0; 1; 2]].
Definition ex_calls : list call := [Using 0 0] ++ file_calls 3 ex_a ++ [Using 0 1; Using 0 2; Finished 0 3] ++ file_calls 3 ex_b.
Lemma ex_well_cut : Forall well_cut [ex_a; ex_b] /\ Forall well_cut [ex_c].
Proof.
  split; repeat (apply Forall_cons || apply Forall_nil); (split; [reflexivity|split; [eexists _, _; split; [reflexivity|discriminate]|vm_compute; reflexivity]]).
Qed.
Example C86_files_nonvacuous : (forall s, exists fs, of_stream s ex_calls = concat (map (file_calls s) fs) /\ Forall well_cut fs)
  /\ Forall (fun c => match c with Using s _ => 0 <= s < 16 | Finished s _ => 0 <= s < 16 end) ex_calls /\ length ex_calls = 15%nat
  /\ validate (ex_calls ++ [Using 3 2; Using 3 4; Using 0 0; Using 3 0]) = Some [MissingInTheMiddle 3 2; MissingAtTheEnd 2 4].
Proof.
  split; [|split; [|split; vm_compute; reflexivity]].
  - intros s. destruct (Z.eq_dec s 3) as [->|N3]; [exists [ex_a; ex_b]; split; [reflexivity|apply ex_well_cut]|].
    destruct (Z.eq_dec s 0) as [->|N0]; [exists [ex_c]; split; [reflexivity|apply ex_well_cut]|].
    exists []. split; [|constructor]. unfold ex_calls. rewrite !of_stream_app, !other_stream_file by lia. cbn [of_stream filter map concat app]. replace (0 =? s) with false by lia. reflexivity.
  - change ex_calls with (ltac:(let y := eval vm_compute in ex_calls in exact y)). repeat (apply Forall_cons; [lia|]). apply Forall_nil.
Qed.
Example C86_silent_nonvacuous : Forall possible ex_calls /\ validate ex_calls = Some []
  /\ Forall possible (ex_calls ++ [Using 0 2]) /\ validate (ex_calls ++ [Using 0 2]) = Some [MissingInTheMiddle 1 2] /\ last_used 0 ex_calls = Some 2 /\ last_total 3 ex_calls = Some 2 /\ last_used 1 ex_calls = None.
Proof.
  assert (F : Forall possible (ex_calls ++ [Using 0 2])).
  { change (ex_calls ++ [Using 0 2]) with (ltac:(let y := eval vm_compute in (ex_calls ++ [Using 0 2]) in exact y)). repeat (apply Forall_cons; [cbn; lia|]). apply Forall_nil. }
  split; [apply Forall_app in F; apply F|]. split; [vm_compute; reflexivity|]. split; [exact F|]. repeat split; vm_compute; reflexivity.
Qed.
(** Refuted: samples missing at the start are reported.  The first sample used may be any. *)
Theorem C86_start_refuted : forall s a n, 0 <= s < 16 -> 0 <= a -> a + Z.of_nat n < 2 ^ 63 - 1 -> validate (map (Using s) (map (fun i => a + 1 + Z.of_nat i) (seq 0 n))) = Some [].
Proof. exact start_silent. Qed.
Print Assumptions C86_start_refuted.
(** Refuted: samples missing at the end are reported.  For the last file of a stream they are not:
    the number of samples is looked at only when a sample 0 follows. *)
Theorem C86_end_refuted : forall s n total, 0 <= s < 16 -> Z.of_nat n < 2 ^ 63 -> 0 <= total < 2 ^ 63 -> validate (piece_calls s total (numbers n)) = Some [].
Proof. intros s n total S0 N T. apply (cut_short s n total S0 N T). Qed.
Print Assumptions C86_end_refuted.
(** Refuted: two files with samples missing in each are noticed.  If the second one goes on with
    the number at which the first one stopped, they are taken for one. *)
Theorem C86_join_refuted : forall s k n total1 total2, 0 <= s < 16 -> (0 < k)%nat -> Z.of_nat k + Z.of_nat n < 2 ^ 63 - 1 -> 0 <= total1 < 2 ^ 63 -> 0 <= total2 < 2 ^ 63 ->
  validate (piece_calls s total1 (numbers k) ++ piece_calls s total2 (map (fun i => Z.of_nat k + Z.of_nat i) (seq 0 n))) = Some [].
Proof. exact coincidence. Qed.
Print Assumptions C86_join_refuted.
(** Refuted: a report means that a sample is missing.  A sample used twice is reported as missing
    ones (the numbers reported show it: the first is the smaller one). *)
Theorem C86_twice_refuted : forall p s b, Forall possible p -> possible (Using s b) -> last_used s p = Some b -> b <> 0 -> exists out, validate p = Some out /\ validate (p ++ [Using s b]) = Some (out ++ [MissingInTheMiddle (b - 1) b]).
Proof.
  intros p s b F P L NZ. destruct (C86_reports p s b F P) as (out & V1 & V2). exists out. split; [exact V1|]. rewrite V2, L. cbn in P. replace (b =? 0) with false by lia. replace (b =? b + 1) with false by lia. reflexivity.
Qed.
Print Assumptions C86_twice_refuted.
(** Refuted: no report for files cut without loss, whatever the pieces.  If the first piece of a
    file which follows another one holds no sample, the samples of the file before are compared
    with the number of this one. *)
Theorem C86_empty_refuted : forall s f total n, 0 <= s < 16 -> well_cut f -> 0 <= total < 2 ^ 63 -> total <> Z.of_nat (length (concat f)) -> Z.of_nat n < 2 ^ 63 - 1 ->
  validate (file_calls s f ++ piece_calls s total [] ++ piece_calls s total (numbers (S n))) = Some [MissingAtTheEnd total (Z.of_nat (length (concat f)) - 1)].
Proof. exact empty_first. Qed.
Print Assumptions C86_empty_refuted.
(** Refuted: any number of streams can be checked.  The 17th is outside of the arrays, after any
    calls. *)
Theorem C86_streams_refuted : forall p s n, Forall possible p -> 16 <= s -> validate (p ++ [Using s n]) = None.
Proof. exact outside. Qed.
Print Assumptions C86_streams_refuted.
Example C86_refuted_nonvacuous : (Forall possible ex_calls /\ last_used 3 ex_calls = Some 1 /\ validate (ex_calls ++ [Using 3 1]) = Some [MissingInTheMiddle 0 1])
  /\ (well_cut ex_a /\ 2 <> Z.of_nat (length (concat ex_a))) /\ validate (piece_calls 0 9 [4; 5] ++ piece_calls 0 3 [0]) = Some [MissingAtTheEnd 9 5].
Proof.
  split; [split; [apply C86_silent_nonvacuous|split; vm_compute; reflexivity]|]. split; [split; [destruct ex_well_cut as [W _]; apply (Forall_inv W)|vm_compute; discriminate]|vm_compute; reflexivity].
Qed.
