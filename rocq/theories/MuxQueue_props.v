(** Property C38: the interleaving of streams into one file keeps every sample. *)
From Coq Require Import Permutation.
From Verif Require Import Util SampleTab_model MuxQueue_model MuxQueue_proofs.
Local Open Scope Z_scope.

(** After any history of samples given to any streams: for every stream, the samples noted as
    written and those still waiting are the samples given, in the order in which they were given;
    the file holds exactly the samples written, one after the other. *)
Theorem C38_kept : forall use_comp dist inc n h m, after use_comp dist inc n h m -> length (m_streams m) = n
  /\ (forall k, (k < n)%nat -> given h k = map fst (written (nth k (m_streams m) stream0)) ++ pending (nth k (m_streams m) stream0))
  /\ exists order, Permutation order (concat (map written (m_streams m))) /\ laid_out 0 order /\ m_file m = concat (map (fun x => s_body (fst x)) order).
Proof. exact after_kept. Qed.
Print Assumptions C38_kept.
(** At the place noted for a sample the file has the sample. *)
Theorem C38_place : forall use_comp dist inc n h m k s p, after use_comp dist inc n h m -> In (s, p) (written (nth k (m_streams m) stream0)) ->
  0 <= p /\ firstn (length (s_body s)) (skipn (Z.to_nat p) (m_file m)) = s_body s.
Proof. exact after_bytes. Qed.
Print Assumptions C38_place.
(** Every call returns. *)
Theorem C38_ends : forall use_comp dist inc n h m k s, 0 <= dist < 2 ^ 61 -> 0 < inc < 2 ^ 61 -> after use_comp dist inc n h m -> Forall (fun x => good_time (snd x)) h -> (k < n)%nat -> good_time s ->
  exists fuel m', add_sample fuel use_comp dist inc m k s = Some m'.
Proof. exact add_ends. Qed.
Print Assumptions C38_ends.
(** After every call some stream has nothing waiting; with a single stream everything is
    written at once, in the order given. *)
Theorem C38_progress : forall use_comp dist inc n h m, after use_comp dist inc n h m -> h <> [] -> exists k, (k < n)%nat /\ map fst (written (nth k (m_streams m) stream0)) = given h k.
Proof. exact after_one_empty. Qed.
Print Assumptions C38_progress.
Theorem C38_single : forall use_comp dist inc h m, after use_comp dist inc 1 h m -> m_file m = concat (map s_body (given h 0)) /\ map fst (written (nth 0 (m_streams m) stream0)) = given h 0.
Proof. exact after_single. Qed.
Print Assumptions C38_single.
(** two streams: video at 0, 40 and 80 ms, audio at 0 and 50 *)
Definition ex_history : history := [(0%nat, mkS 0 0 [1; 1] false); (0%nat, mkS 400000 400000 [2] false); (1%nat, mkS 0 0 [7] false); (1%nat, mkS 500000 500000 [8; 8] false); (0%nat, mkS 800000 800000 [3] false)].
Example C38_nonvacuous : exists m, after false 300000 100000 2 ex_history m /\ m_file m = [1; 1; 7; 2; 8; 8] /\ map pending (m_streams m) = [[mkS 800000 800000 [3] false]; []]
  /\ Forall (fun x => good_time (snd x)) ex_history.
Proof.
  eexists. split; [apply (run_after 30 false 300000 100000 2 ex_history [] (mux0 300000 2)); [apply after_nil|repeat (apply Forall_cons; [cbn; lia|]); apply Forall_nil|vm_compute; reflexivity]|].
  split; [reflexivity|]. split; [reflexivity|]. repeat (apply Forall_cons; [cbv [snd good_time s_comp s_dec]; split; split; lia|]); apply Forall_nil.
Qed.
(** Refuted: not every sample given is in the finished file.  A stream that never gets a sample
    keeps all the samples of all the streams out of it, and even when every stream gets samples
    those still waiting at the end are lost (MP4Mux::end writes the tables and copies the file as
    it is). *)
Theorem C38_lost_refuted : forall use_comp dist inc n h m k, 0 <= dist < 2 ^ 61 -> after use_comp dist inc n h m -> Forall (fun x => good_time (snd x)) h -> (k < n)%nat -> given h k = [] ->
  m_file m = [] /\ Forall (fun st => written st = []) (m_streams m).
Proof. exact after_nothing. Qed.
Print Assumptions C38_lost_refuted.
Example C38_lost_nonvacuous : exists m, after true 300000 100000 2 [(0%nat, mkS 0 0 [1; 1] false); (0%nat, mkS 400000 400000 [2] false)] m /\ given [(0%nat, mkS 0 0 [1; 1] false); (0%nat, mkS 400000 400000 [2] false)] 1 = [].
Proof.
  eexists. split; [|reflexivity]. apply (run_after 30 true 300000 100000 2 [_; _] [] (mux0 300000 2)); [apply after_nil|repeat (apply Forall_cons; [cbn; lia|]); apply Forall_nil|vm_compute; reflexivity].
Qed.
