(** C81: copying a stream into another while reads and writes complete on another thread. *)
From Coq Require Import ZifyNat.
From Verif Require Import Util Copy_model Copy_proofs Copy_proofs2.
Local Open Scope Z_scope.
Local Ltac Zify.zify_post_hook ::= Z.div_mod_to_equations.

Lemma fine_of c : 0 < c_chunk c -> 0 <= c_from c <= Z.of_nat (length (c_src c)) -> (c_lazy c = true -> c_from c < 2 ^ 32) -> fine c /\ seek c = c_from c.
Proof. intros K P L. assert (S1 : seek c = c_from c) by (unfold seek; destruct (c_lazy c); [unfold u32; apply Z.mod_small; specialize (L eq_refl); lia|reflexivity]). split; [|exact S1]. split; [exact K|]. rewrite S1. exact P. Qed.
(** In every schedule: when the copy returns, the destination holds, from where it was, the bytes of
    the source from the start asked for to its end, or to the first end of a chunk at or after the end
    asked for; nothing else of it has changed. *)
Theorem C81_copied : forall c ls s, 0 < c_chunk c -> 0 <= c_from c <= Z.of_nat (length (c_src c)) -> (c_lazy c = true -> c_from c < 2 ^ 32) -> c_to c = 0 \/ c_from c <= c_to c ->
  run c ls (initial c) = Some s -> returned s ->
  forall i, s_mem s i = if (c_dpos c <=? i) && (i <? c_dpos c + (stops_at c - c_from c)) then nth_error (c_src c) (Z.to_nat (c_from c + (i - c_dpos c))) else c_dest c i.
Proof.
  intros c ls s K P L T R D i. destruct (fine_of c K P L) as (F & S1). pose proof (inv_run c ls _ _ F (inv_initial c F) R) as I. rewrite (done_ok c s F I (or_introl D)) by (rewrite S1; exact T). unfold stops, stops_at. rewrite S1. reflexivity.
Qed.
Print Assumptions C81_copied.
Definition ex_copy : cfg := mkCfg [11; 12; 13; 14; 15; 16; 17] false 3 1 0 (fun i => if i =? 0 then Some 9 else None) 1.
(** two reads asked for before the first is done, the writes done in the other order *)
Definition ex_schedule : list label := [Main; Main; Main; Main; ReadDone; ReadDone; Main; Main; Main; Main; WriteDone 1; CbEnd; WriteDone 0; CbEnd; Main].
Example C81_copied_nonvacuous : exists s, run ex_copy ex_schedule (initial ex_copy) = Some s /\ returned s /\ map (s_mem s) [0; 1; 2; 3; 4; 5; 6; 7] = [Some 9; Some 12; Some 13; Some 14; Some 15; Some 16; Some 17; None] /\ stops_at ex_copy = 7.
Proof. eexists. split; [vm_compute; reflexivity|]. split; [reflexivity|]. split; vm_compute; reflexivity. Qed.

(** At no time are more than eleven chunks on their way, whatever the number of chunks. *)
Theorem C81_bounded : forall c ls s, 0 < c_chunk c -> 0 <= c_from c <= Z.of_nat (length (c_src c)) -> (c_lazy c = true -> c_from c < 2 ^ 32) -> run c ls (initial c) = Some s -> (in_flight s <= 11)%nat.
Proof. intros c ls s K P L R. destruct (fine_of c K P L) as (F & S1). pose proof (inv_run c ls _ _ F (inv_initial c F) R) as (_ & C & _). apply (n_max _ _ C). Qed.
Print Assumptions C81_bounded.
Example C81_bounded_nonvacuous : exists s, run (mkCfg (repeat 7 40) true 2 0 0 (fun _ => None) 0) (repeat Main 30) (initial (mkCfg (repeat 7 40) true 2 0 0 (fun _ => None) 0)) = Some s /\ in_flight s = 11%nat.
Proof. eexists. split; [vm_compute; reflexivity|vm_compute; reflexivity]. Qed.

(** The copy comes to an end: from wherever a schedule has led, it can be completed, and in every
    schedule all but a bounded number of steps only wait. *)
Theorem C81_ends : forall c ls s, 0 < c_chunk c -> 0 <= c_from c <= Z.of_nat (length (c_src c)) -> (c_lazy c = true -> c_from c < 2 ^ 32) -> run c ls (initial c) = Some s -> exists ls' s', run c ls' s = Some s' /\ ended s'.
Proof. intros c ls s K P L R. destruct (fine_of c K P L) as (F & S1). pose proof (inv_run c ls _ _ F (inv_initial c F) R) as I. destruct (reaches_end c _ s F I (le_n _)) as (ls' & s' & _ & R' & E). exists ls', s'. split; assumption. Qed.
Print Assumptions C81_ends.
Theorem C81_steps : forall c n s, 0 < c_chunk c -> 0 <= c_from c <= Z.of_nat (length (c_src c)) -> (c_lazy c = true -> c_from c < 2 ^ 32) -> runs c n (initial c) s ->
  Z.of_nat n <= 20 * (1 + (Z.of_nat (length (c_src c)) - c_from c)) + 7 /\ (ended s \/ exists l s', step c l s = Some s' /\ ~ idle l s s').
Proof.
  intros c n s K P L R. destruct (fine_of c K P L) as (F & S1). destruct (runs_inv c n _ _ F (inv_initial c F) R) as (I & W). rewrite weight_initial, S1 in W. pose proof (weight_pos c s (proj2 (proj2 I))) as W0. split; [unfold zlen in W; lia|].
  assert (E : ended s \/ ~ ended s) by (unfold ended; destruct (s_phase s); auto; right; intros [H|H]; discriminate H). destruct E as [E|E]; [left; exact E|right]. destruct (enabled c s F I E) as (l & s' & E1 & E2). exists l, s'. split; [exact E1|].
  intros Q. unfold idle in Q. destruct Q as [Q|Q]; [subst s'; lia|]. assert (X : weight c s' = weight c s); [|lia].
  destruct Q as [(-> & Q1 & Q2)|[(-> & Q1 & Q2)|(-> & Q1 & Q2)]]; cbn [step] in E1; unfold main_step, timeout_step in E1; rewrite Q1 in E1; match type of E1 with Some (set_phase ?p s) = _ => assert (Y : s' = set_phase p s) by congruence end; subst s'; rewrite weight_phase; cbn [set_phase s_phase] in Q2; rewrite ?Q2, Q1; cbn; lia.
Qed.
Print Assumptions C81_steps.
Example C81_steps_nonvacuous : exists s, runs ex_copy 1 (initial ex_copy) s.
Proof. eexists. eapply (runs_work _ 0 Main); [apply runs_none|vm_compute; reflexivity|]. intros [H|[(_ & H & _)|[(H & _)|(_ & H & _)]]]; discriminate H. Qed.

(** Refuted: when the copy returns nothing of it is in use.  Whatever is copied, there is a schedule in
    which the callback of the last write goes on in the object of the copy after the copy returned. *)
Theorem C81_early_refuted : forall c, 0 < c_chunk c -> 0 <= c_from c < Z.of_nat (length (c_src c)) -> (c_lazy c = true -> c_from c < 2 ^ 32) -> c_to c = 0 \/ c_from c < c_to c ->
  exists ls s, run c ls (initial c) = Some s /\ returned s /\ touches s.
Proof.
  intros c K P L T. destruct (fine_of c K ltac:(lia) L) as (F & S1). apply (early c (Z.to_nat (weight c (initial c))) (initial c) F (inv_initial c F)); [repeat split; reflexivity| |apply le_n].
  unfold more, at_end. cbn [initial s_eof s_pos]. rewrite S1. unfold zlen. replace (Z.of_nat (length (c_src c)) <=? c_from c) with false by lia. destruct (c_lazy c); cbn [negb andb]; destruct T; lia.
Qed.
Print Assumptions C81_early_refuted.
(** Refuted: a copy which is complete is reported as such.  Whatever is copied, there is a schedule in
    which everything is written and the copy fails with a time out. *)
Theorem C81_timeout_refuted : forall c, 0 < c_chunk c -> 0 <= c_from c < Z.of_nat (length (c_src c)) -> (c_lazy c = true -> c_from c < 2 ^ 32) -> c_to c = 0 \/ c_from c < c_to c ->
  exists ls s, run c ls (initial c) = Some s /\ s_phase s = Failed /\
    forall i, s_mem s i = if (c_dpos c <=? i) && (i <? c_dpos c + (stops_at c - c_from c)) then nth_error (c_src c) (Z.to_nat (c_from c + (i - c_dpos c))) else c_dest c i.
Proof.
  intros c K P L T. destruct (fine_of c K ltac:(lia) L) as (F & S1). destruct (late c (Z.to_nat (weight c (initial c))) (initial c) F (inv_initial c F)) as (ls & s & R & D); [repeat split; reflexivity| |apply le_n|].
  { unfold more, at_end. cbn [initial s_eof s_pos]. rewrite S1. unfold zlen. replace (Z.of_nat (length (c_src c)) <=? c_from c) with false by lia. destruct (c_lazy c); cbn [negb andb]; destruct T; lia. }
  exists ls, s. split; [exact R|]. split; [exact D|]. intros i. pose proof (inv_run c ls _ _ F (inv_initial c F) R) as I. rewrite (done_ok c s F I (or_intror D)) by (rewrite S1; lia). unfold stops, stops_at. rewrite S1. reflexivity.
Qed.
Print Assumptions C81_timeout_refuted.
Example C81_timeout_nonvacuous : 0 <= c_from ex_copy < Z.of_nat (length (c_src ex_copy)) /\ (exists s, run ex_copy [Main; Main; Main; Main; ReadDone; ReadDone; WriteDone 0; CbEnd; WriteDone 0; Main; Main; Main] (initial ex_copy) = Some s /\ returned s /\ touches s)
  /\ exists s, run ex_copy [Main; Main; Main; Main; ReadDone; ReadDone; WriteDone 0; CbEnd; Main; Main; Main; Main; Timeout; WriteDone 0; Main; Main; Timeout] (initial ex_copy) = Some s /\ s_phase s = Failed /\ map (s_mem s) [1; 6] = [Some 12; Some 17].
Proof. split; [vm_compute; split; congruence|]. split; eexists; (split; [vm_compute; reflexivity|]); split; vm_compute; reflexivity. Qed.
(** Refuted: copying up to a place copies nothing after it.  If the place is inside a chunk, the byte
    at it is copied too. *)
Theorem C81_to_refuted : forall c ls s, 0 < c_chunk c -> 0 <= c_from c < c_to c -> c_to c < Z.of_nat (length (c_src c)) -> (c_lazy c = true -> c_from c < 2 ^ 32) -> (c_to c - c_from c) mod c_chunk c <> 0 ->
  run c ls (initial c) = Some s -> returned s -> s_mem s (c_dpos c + (c_to c - c_from c)) = nth_error (c_src c) (Z.to_nat (c_to c)).
Proof.
  intros c ls s K P Q L N R D. rewrite (C81_copied c ls s K ltac:(lia) L ltac:(lia) R D). replace (c_from c + (c_dpos c + (c_to c - c_from c) - c_dpos c)) with (c_to c) by lia.
  assert (X : c_to c < stops_at c).
  { unfold stops_at. replace (c_to c =? 0) with false by lia. set (q := c_chunk c) in *. set (d := c_to c - c_from c) in *. apply Z.min_glb_lt; [exact Q|]. pose proof (Z.div_mod d q ltac:(lia)) as DM. pose proof (Z.mod_pos_bound d q K) as B. assert (G : d / q + 1 <= (d + q - 1) / q) by (apply Z.div_le_lower_bound; lia). assert (q * (d / q + 1) <= q * ((d + q - 1) / q)) by (apply Z.mul_le_mono_nonneg_l; lia). lia. }
  replace ((c_dpos c <=? c_dpos c + (c_to c - c_from c)) && (c_dpos c + (c_to c - c_from c) <? c_dpos c + (stops_at c - c_from c))) with true by lia. reflexivity.
Qed.
Print Assumptions C81_to_refuted.
Definition ex_part : cfg := mkCfg [11; 12; 13; 14; 15; 16; 17] true 3 1 3 (fun _ => None) 0.
Example C81_to_nonvacuous : exists s, run ex_part [Main; Main; ReadDone; WriteDone 0; CbEnd; Main; Main; Main] (initial ex_part) = Some s /\ returned s /\ (c_to ex_part - c_from ex_part) mod c_chunk ex_part <> 0 /\ map (s_mem s) [0; 1; 2; 3] = [Some 12; Some 13; Some 14; None].
Proof. eexists. split; [vm_compute; reflexivity|]. split; [reflexivity|]. split; [vm_compute; discriminate|vm_compute; reflexivity]. Qed.
(** Refuted: copying from a place starts there.  A synchronous file is read from the lower 32 bits of
    the place. *)
Theorem C81_from_refuted : forall c ls s, 0 < c_chunk c -> c_lazy c = true -> 2 ^ 32 <= c_from c -> c_from c mod 2 ^ 32 < Z.of_nat (length (c_src c)) -> c_to c = 0 -> run c ls (initial c) = Some s -> returned s ->
  s_mem s (c_dpos c) = nth_error (c_src c) (Z.to_nat (c_from c mod 2 ^ 32)).
Proof.
  intros c ls s K L P Q T R D. assert (S1 : seek c = c_from c mod 2 ^ 32) by (unfold seek; rewrite L; reflexivity). pose proof (Z.mod_pos_bound (c_from c) (2 ^ 32) ltac:(lia)) as B. assert (F : fine c) by (split; [exact K|rewrite S1; unfold zlen; lia]).
  pose proof (inv_run c ls _ _ F (inv_initial c F) R) as I. rewrite (done_ok c s F I (or_introl D)) by (left; exact T). unfold stops. rewrite T. cbn [Z.eqb]. rewrite S1. unfold zlen. replace ((c_dpos c <=? c_dpos c) && (c_dpos c <? c_dpos c + (Z.of_nat (length (c_src c)) - c_from c mod 2 ^ 32))) with true by lia. f_equal. f_equal. lia.
Qed.
Print Assumptions C81_from_refuted.
Example C81_from_nonvacuous : let c := mkCfg [11; 12; 13; 14; 15; 16; 17] true 10 (2 ^ 32 + 5) 0 (fun _ => None) 0 in
  exists s, run c [Main; Main; ReadDone; WriteDone 0; CbEnd; Main; Main; Main] (initial c) = Some s /\ returned s /\ map (s_mem s) [0; 1; 2] = [Some 16; Some 17; None].
Proof. eexists. split; [vm_compute; reflexivity|]. split; [reflexivity|]. vm_compute. reflexivity. Qed.
