(** Property C37: decoding times made up from presentation times. *)
From Coq Require Import Sorted.
From Verif Require Import Util SampleTab_model AutoDec_model AutoDec_proofs.
Local Open Scope Z_scope.

(** Any presentation times, in decoding order: the decoding times start from the earliest of
    them, never go back, and each comes after the one before by the time between the sample's
    presentation and the presentation just before it; each sample is decoded no later than
    presented with the offset, and the offset is no larger than needed. *)
Theorem C37_valid : forall l m, modest l -> earliest l m -> exists ds off, auto_decoding l = (ds, off) /\ length ds = length l /\ 0 <= off
  /\ (forall i, (i < length l)%nat -> (earliest l (nth i l 0) -> nth i ds 0 = nth i (m :: ds) 0) /\ (forall p, just_before l p (nth i l 0) -> nth i ds 0 = nth i (m :: ds) 0 + (nth i l 0 - p)))
  /\ (forall i, (i < length l)%nat -> nth i (m :: ds) 0 <= nth i ds 0 <= nth i l 0 + off)
  /\ (off = 0 \/ exists i, (i < length l)%nat /\ nth i ds 0 = nth i l 0 + off).
Proof. exact auto_valid. Qed.
Print Assumptions C37_valid.
(** I P B B P B B *)
Example C37_nonvacuous : let l := [0; 1200000; 400000; 800000; 2400000; 1600000; 2000000] in modest l /\ earliest l 0 /\ NoDup l /\ latest l 2400000
  /\ auto_decoding l = ([0; 400000; 800000; 1200000; 1600000; 2000000; 2400000], 400000).
Proof.
  cbv zeta. split; [split; [repeat (apply Forall_cons; [lia|]); apply Forall_nil|cbn [length]; intros c Hc; cbn in Hc; lia]|]. split; [split; [left; reflexivity|cbn; lia]|]. split; [repeat constructor; cbn; lia|]. split; [split; [cbn; lia|cbn; lia]|]. vm_compute. reflexivity.
Qed.
(** Distinct presentation times: the last decoding time is the latest presentation time. *)
Theorem C37_same_end : forall l M, modest l -> NoDup l -> latest l M -> exists ds off, auto_decoding l = (ds, off) /\ last ds 0 = M.
Proof. exact auto_last. Qed.
Print Assumptions C37_same_end.
(** Samples presented in the order in which they are decoded, and only these, need no offset,
    and are decoded when presented. *)
Theorem C37_in_order : forall l, modest l -> NoDup l -> l <> [] -> exists ds off, auto_decoding l = (ds, off) /\ (off = 0 <-> StronglySorted Z.lt l) /\ (StronglySorted Z.lt l -> ds = l).
Proof. exact auto_in_order. Qed.
Print Assumptions C37_in_order.
(** Two samples following each other are decoded at different times, but (refuted) not when the
    second is presented first of all. *)
Theorem C37_strict_refuted : forall l, modest l -> l <> [] -> exists ds off, auto_decoding l = (ds, off)
  /\ forall i, (S i < length l)%nat -> (earliest l (nth (S i) l 0) -> nth (S i) ds 0 = nth i ds 0) /\ (~ earliest l (nth (S i) l 0) -> nth i ds 0 < nth (S i) ds 0).
Proof. exact auto_strict. Qed.
Print Assumptions C37_strict_refuted.
(** I presented after two B frames *)
Example C37_strict_nonvacuous : auto_decoding [800000; 0; 400000] = ([400000; 400000; 800000], 400000). Proof. vm_compute. reflexivity. Qed.
(** Refuted for samples presented together: their time is counted for each of them, and decoding
    goes on after the last presentation. *)
Theorem C37_together_refuted : exists l M ds off, modest l /\ latest l M /\ auto_decoding l = (ds, off) /\ M < last ds 0 /\ StronglySorted Z.le l /\ 0 < off.
Proof.
  exists [0; 400000; 400000; 800000], 800000. eexists _, _. split; [split; [repeat (apply Forall_cons; [lia|]); apply Forall_nil|cbn [length]; intros c Hc; cbn in Hc; lia]|]. split; [split; [cbn; lia|cbn; lia]|].
  split; [vm_compute; reflexivity|]. split; [vm_compute; reflexivity|]. split; [repeat (constructor; [|repeat (apply Forall_cons; [lia|]); apply Forall_nil]); constructor|lia].
Qed.
Print Assumptions C37_together_refuted.
