(** Proofs about Sync_model. *)
From Coq Require Import ZifyBool ZifyNat.
From Verif Require Import Util HlsCrypt_model Sync_model.
Local Open Scope Z_scope.

Lemma split_first : forall (a b : nat) (l : list Z), firstn a l ++ firstn b (skipn a l) = firstn (a + b) l.
Proof. induction a as [|a IH]; intros b l; [reflexivity|]. destruct l as [|x l]; [cbn; apply firstn_nil|]. cbn. rewrite IH. reflexivity. Qed.
Lemma skip_skip : forall (a b : nat) (l : list Z), skipn b (skipn a l) = skipn (a + b) l.
Proof. induction a as [|a IH]; intros b l; [reflexivity|]. destruct l as [|x l]; [cbn; apply skipn_nil|]. cbn. apply IH. Qed.
Lemma all_of_pos : forall l, Forall (fun n => 0 <= n) l -> 0 <= all_of l.
Proof. induction l as [|n l IH]; intros F; [cbn; lia|]. pose proof (Forall_inv F) as N. cbv beta in N. specialize (IH (Forall_inv_tail F)). change (all_of (n :: l)) with (n + all_of l). lia. Qed.
Lemma reads_go_on : forall l f, Forall (fun n => 0 <= n) l -> 0 <= f_pos f -> let '(f', got) := freads f l in
  concat got = firstn (Z.to_nat (all_of l)) (skipn (Z.to_nat (f_pos f)) (f_bytes f)) /\ f_bytes f' = f_bytes f /\ f_size f' = f_size f /\ f_pos f' = f_pos f + zlen (concat got)
  /\ f_end f' = (f_end f || (zlen (concat got) <? all_of l)).
Proof.
  induction l as [|n l IH]; intros f F P; [cbn; unfold zlen; cbn; repeat split; try lia; destruct (f_end f); reflexivity|].
  pose proof (Forall_inv F) as N. cbv beta in N. pose proof (all_of_pos l (Forall_inv_tail F)) as A. cbn [freads fread].
  set (g := firstn (Z.to_nat n) (skipn (Z.to_nat (f_pos f)) (f_bytes f))). set (f1 := mkF (f_bytes f) (f_pos f + zlen g) (f_end f || (zlen g <? n)) (f_size f)).
  assert (GL : zlen g = Z.min n (Z.max 0 (zlen (f_bytes f) - f_pos f))). { unfold g, zlen. rewrite firstn_length, skipn_length. lia. }
  specialize (IH f1 (Forall_inv_tail F)). destruct (freads f1 l) as [f2 r]. cbn [f1 f_pos f_bytes f_size f_end] in IH. destruct IH as (I1 & I2 & I3 & I4 & I5); [unfold zlen; lia|]. cbn [concat]. change (all_of (n :: l)) with (n + all_of l).
  assert (EQ : g ++ concat r = firstn (Z.to_nat (n + all_of l)) (skipn (Z.to_nat (f_pos f)) (f_bytes f))).
  { rewrite I1. replace (Z.to_nat (n + all_of l)) with (Z.to_nat n + Z.to_nat (all_of l))%nat by lia. rewrite <- split_first. fold g. f_equal. rewrite skip_skip.
    destruct (Z_lt_le_dec (zlen g) n) as [L|L].
    - rewrite (skipn_all2 (n := Z.to_nat (f_pos f + zlen g))) by (unfold zlen in *; lia). rewrite skipn_all2 by (unfold zlen in *; lia). reflexivity.
    - replace (Z.to_nat (f_pos f + zlen g)) with (Z.to_nat (f_pos f) + Z.to_nat n)%nat by (unfold zlen in *; lia). reflexivity. }
  split; [exact EQ|]. split; [exact I2|]. split; [exact I3|]. assert (CL : zlen (g ++ concat r) = zlen g + zlen (concat r)) by (unfold zlen; rewrite app_length; lia). split; [lia|].
  rewrite I5, CL. assert (RL : zlen (concat r) = Z.min (all_of l) (Z.max 0 (zlen (f_bytes f) - (f_pos f + zlen g)))). { rewrite I1. unfold zlen. rewrite firstn_length, skipn_length. unfold zlen in *. lia. }
  destruct (f_end f); [reflexivity|]. cbn [orb]. lia.
Qed.
Lemma write_at : forall f l, 0 <= f_pos f <= zlen (f_bytes f) -> f_bytes (fwrite f l) = replaced (f_bytes f) (Z.to_nat (f_pos f)) l /\ f_pos (fwrite f l) = f_pos f + zlen l /\ f_size (fwrite f l) = f_size f /\ f_end (fwrite f l) = f_end f.
Proof.
  intros f l P. unfold fwrite, replaced. destruct l as [|b l].
  - cbn [app length]. rewrite Nat.add_0_r, firstn_skipn. unfold zlen. cbn. repeat split. lia.
  - cbn [f_bytes f_pos f_size f_end]. replace (Z.to_nat (f_pos f) - length (f_bytes f))%nat with 0%nat by (unfold zlen in P; lia). cbn [repeat]. rewrite app_nil_r. repeat split.
Qed.
Lemma writes_append : forall ls f, f_pos f = zlen (f_bytes f) -> f_bytes (fwrites f ls) = f_bytes f ++ concat ls /\ f_pos (fwrites f ls) = zlen (f_bytes (fwrites f ls)) /\ f_size (fwrites f ls) = f_size f.
Proof.
  induction ls as [|l ls IH]; intros f P; [cbn; rewrite app_nil_r; auto|]. cbn [fwrites fold_left]. destruct (write_at f l) as (A & B & C & _); [unfold zlen in *; lia|].
  assert (R : f_bytes (fwrite f l) = f_bytes f ++ l). { rewrite A. unfold replaced. rewrite firstn_all2 by (unfold zlen in *; lia). rewrite skipn_all2 by (unfold zlen in *; lia). rewrite app_nil_r. reflexivity. }
  destruct (IH (fwrite f l)) as (X & Y & W); [rewrite B, R; unfold zlen in *; rewrite app_length; lia|]. unfold fwrites in *. rewrite X, R, <- app_assoc. cbn [concat]. split; [reflexivity|]. split; [rewrite Y, X, R, <- app_assoc; reflexivity|congruence].
Qed.
