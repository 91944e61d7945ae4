(** Proofs about Conform_model: files of fragments. *)
From Coq Require Import ZifyNat.
From Verif Require Import Util SampleTab_model SampleTab_proofs HlsCrypt_model Box_model Box_proofs Cenc_model Cenc_proofs Frag_model Frag_proofs Frag_proofs4 Defrag_model Foreign_model Foreign_proofs Sealed_model Sealed_proofs Conform_model Conform_proofs Conform_proofs2.
Local Open Scope Z_scope.
Opaque be be32.
Section Scale.
Variable scale : Z -> Z -> Z.
Lemma ends_fin : forall key st base l f w, fragment_ok scale key (st, base, l) -> end_fragment scale st base l (mkW f (zlen f) []) = Some w -> w = mkW (w_file w) (zlen (w_file w)) [].
Proof.
  intros key st base l f w (K & B & N & R & T) H. pose proof (room_small scale key st base l K R) as Sf. change (mkW f (zlen f) []) with (fin f []) in H. rewrite end_fragment_ok in H by assumption. injection H as <-. reflexivity.
Qed.
Lemma file_clear : forall frs f, Forall (fragment_ok scale None) frs -> Forall (fun fr => first_flags (fst (fst fr)) < 2 ^ 32) frs -> exists w xs added, write_fragments scale frs (mkW f (zlen f) []) = Some w /\ w_file w = f ++ added
  /\ foreign_file (zlen f) xs added /\ Forall foreign_ok xs /\ Forall2 (fun '(st, base, l) x => says scale st base l x) frs xs.
Proof.
  induction frs as [|[[st base] l] frs IH]; intros f F G.
  - exists (mkW f (zlen f) []), [], []. split; [reflexivity|]. split; [symmetry; apply app_nil_r|]. split; [exact (foreign_end (zlen f) [] (Forall_nil _))|]. split; constructor.
  - destruct (written_conforms scale st base l f (Forall_inv F) (Forall_inv G)) as (w1 & x & a1 & W1 & E1 & L1 & O1 & S1 & _). pose proof (ends_fin _ _ _ _ _ _ (Forall_inv F) W1) as Ew. rewrite E1 in Ew.
    destruct (IH (f ++ a1) (Forall_inv_tail F) (Forall_inv_tail G)) as (w & xs & a & W & E & L & O & S). rewrite <- Ew in W. rewrite zlen_app' in L.
    exists w, (x :: xs), (a1 ++ a). split; [cbn [write_fragments]; rewrite W1; exact W|]. split; [rewrite E, <- app_assoc; reflexivity|]. split; [apply foreign_next; assumption|]. split; constructor; assumption.
Qed.
Lemma file_sealed : forall E frs f, Forall (fragment_ok scale (Some E)) frs -> Forall (fun fr => first_flags (fst (fst fr)) < 2 ^ 32) frs -> exists w xs locks added, write_fragments scale frs (mkW f (zlen f) []) = Some w /\ w_file w = f ++ added
  /\ foreign_file (zlen f) xs added /\ Forall2 (sealed_ok E) xs locks /\ Forall2 (fun '(st, base, l) xk => says_sealed scale st base l (fst xk) (snd xk)) frs (combine xs locks).
Proof.
  intros E. induction frs as [|[[st base] l] frs IH]; intros f F G.
  - exists (mkW f (zlen f) []), [], [], []. split; [reflexivity|]. split; [symmetry; apply app_nil_r|]. split; [exact (foreign_end (zlen f) [] (Forall_nil _))|]. split; constructor.
  - pose proof (Forall_inv F) as F1. assert (C : exists sub iv, crypt st = Some (E, sub, iv)) by (destruct F1 as (K & _); unfold key_for in K; destruct (crypt st) as [[[E' sub] iv]|]; [destruct K as (-> & _); do 2 eexists; reflexivity|destruct K]). destruct C as (sub & iv & C).
    destruct (sealed_conforms scale E sub iv st base l f F1 C (Forall_inv G)) as (w1 & x & a1 & k & W1 & E1 & L1 & O1 & S1 & _). pose proof (ends_fin _ _ _ _ _ _ F1 W1) as Ew. rewrite E1 in Ew.
    destruct (IH (f ++ a1) (Forall_inv_tail F) (Forall_inv_tail G)) as (w & xs & ks & a & W & E2 & L & O & S). rewrite <- Ew in W. rewrite zlen_app' in L.
    exists w, (x :: xs), (k :: ks), (a1 ++ a). split; [cbn [write_fragments]; rewrite W1; exact W|]. split; [rewrite E2, <- app_assoc; reflexivity|]. split; [apply foreign_next; assumption|]. split; constructor; assumption.
Qed.
End Scale.
