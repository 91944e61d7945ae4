(** Properties C18 and C19: the queue on a fixed memory block, and the growing queue. *)
From Verif Require Import Util Bits_spec FQueue_model FQueue_proofs FQueue_proofs2.
Local Open Scope Z_scope.

(** * C18 *)
(** Every history of pushes, pops and clears on a fresh queue of any size behaves as a
    FIFO whose items come back byte for byte; size() is the number of items. *)
Theorem C18_fifo : forall tsz cap del m0 ops, 24 < cap < 2 ^ 31 -> ops_ok tsz ops ->
  exists es m q, run tsz cap del ops (init m0 cap) = Some (es, m) /\ fifo_run cap del ops [] es q /\ size m = zlen q.
Proof.
  intros tsz cap del m0 ops Hc Ho. destruct (init_inv tsz cap Hc m0) as [I _].
  destruct (run_ok tsz cap Hc del ops _ [] I Ho) as (es & m & L & E & I' & F & _).
  exists es, m, (map snd L). split; [exact E|]. split; [exact F|]. rewrite (size_len _ _ _ _ I'). unfold zlen. rewrite map_length. reflexivity.
Qed.
Print Assumptions C18_fifo.
(** Drop-on-full removes as few of the oldest items as possible: one fewer and the
    push would have been refused; refused altogether only after dropping everything. *)
Theorem C18_drops_minimal : forall tsz cap del m0 ops es m it, 24 < cap < 2 ^ 31 -> ops_ok tsz ops -> item_ok tsz it ->
  run tsz cap del ops (init m0 cap) = Some (es, m) ->
  exists k, Z.of_nat k <= size m
   /\ (forall j, (j < k)%nat -> push tsz cap false (fst it) (snd it) (drop j m) = Refused (drop j m))
   /\ push tsz cap true (fst it) (snd it) m = push tsz cap false (fst it) (snd it) (drop k m)
   /\ (push tsz cap true (fst it) (snd it) m = Refused (drop k m) -> Z.of_nat k = size m).
Proof.
  intros tsz cap del m0 ops es m it Hc Ho Hi Hr. destruct (init_inv tsz cap Hc m0) as [I _].
  destruct (run_ok tsz cap Hc del ops _ [] I Ho) as (es' & m' & L & E & I' & _). rewrite Hr in E. injection E as <- <-.
  destruct (drop_minimal tsz cap m L it Hc I' Hi) as (k & K1 & K2 & K3 & K4). exists k. rewrite (size_len _ _ _ _ I').
  split; [lia|]. split; [exact K2|]. split; [exact K3|]. intros Q. f_equal. apply K4, Q.
Qed.
Print Assumptions C18_drops_minimal.
(** Without drop-on-full a push is accepted exactly when there is room after the last
    block or (not wrapped) before the first one, else it changes nothing. *)
Theorem C18_accepted_iff_room : forall tsz cap del m0 ops es m, 24 < cap < 2 ^ 31 -> ops_ok tsz ops ->
  run tsz cap del ops (init m0 cap) = Some (es, m) ->
  exists L, fifo_run cap del ops [] es (map snd L) /\ (forall o it, In (o, it) L -> stored tsz m o it) /\
   forall it, item_ok tsz it ->
    ((exists m', push tsz cap false (fst it) (snd it) m = Pushed m') <-> room_for cap L (item_space it))
    /\ (~ room_for cap L (item_space it) -> push tsz cap false (fst it) (snd it) m = Refused m).
Proof.
  intros tsz cap del m0 ops es m Hc Ho Hr. destruct (init_inv tsz cap Hc m0) as [I _].
  destruct (run_ok tsz cap Hc del ops _ [] I Ho) as (es' & m' & L & E & I' & F & _). rewrite Hr in E. injection E as <- <-.
  exists L. split; [exact F|]. split.
  - intros o it Hp. pose proof (proj1 (Forall_forall _ _) (i_items _ _ _ _ I') _ Hp) as [(_ & _ & S) _]. exact S.
  - intros it Ok. apply accepted_iff; assumption.
Qed.
Print Assumptions C18_accepted_iff_room.
(** The growing queue loses nothing: pushed items are appended, pops give them back in
    order, whatever block each growth receives. *)
Theorem C18_growing_lossless : forall tsz fresh cap m0 ops es cap' m', 24 < cap < 2 ^ 31 -> ops_ok tsz ops ->
  grun tsz fresh ops cap (init m0 cap) = Some (es, cap', m') ->
  exists q, lossless_run ops [] es q /\ size m' = zlen q.
Proof.
  intros tsz fresh cap m0 ops es cap' m' Hc Ho Hr. destruct (init_inv tsz cap Hc m0) as [I _].
  pose proof (grun_ok tsz fresh ops cap _ [] Hc I Ho) as G. rewrite Hr in G. destruct G as (L & I' & _ & F).
  exists (map snd L). split; [exact F|]. rewrite (size_len _ _ _ _ I'). unfold zlen. rewrite map_length. reflexivity.
Qed.
Print Assumptions C18_growing_lossless.
(** and a push does not fail while the data held plus the new item stays below 2^30-1
    bytes (block below 2^30-1 bytes too; smallest block the code uses: 48 bytes). *)
Theorem C18_growing_progress : forall tsz fresh cap m0 ops es cap' m' it, 24 < cap < 2 ^ 31 -> ops_ok tsz ops -> item_ok tsz it ->
  grun tsz fresh ops cap (init m0 cap) = Some (es, cap', m') -> cap' < 2 ^ 30 - 1 ->
  (forall q, lossless_run ops [] es q -> 24 + used q + item_space it < 2 ^ 30 - 1) ->
  exists cap'' m'', gpush tsz fresh (fst it) (snd it) cap' m' = GPushed cap'' m''.
Proof.
  intros tsz fresh cap m0 ops es cap' m' it Hc Ho Hi Hr Hb Hu. destruct (init_inv tsz cap Hc m0) as [I _].
  pose proof (grun_ok tsz fresh ops cap _ [] Hc I Ho) as G. rewrite Hr in G. destruct G as (L & I' & Hc' & F).
  apply (gpush_progress tsz fresh it 32 cap' m' L); auto; try lia. 
Qed.
Print Assumptions C18_growing_progress.
(** Refuted: with drop-on-full, a push that cannot succeed still empties the queue. *)
Theorem C18_hopeless_push_keeps_items_refuted :
  exists tsz cap m0 ops it es m m', 24 < cap < 2 ^ 31 /\ ops_ok tsz ops /\ item_ok tsz it
   /\ run tsz cap true ops (init m0 cap) = Some (es, m) /\ size m = 2
   /\ push tsz cap true (fst it) (snd it) m = Refused m' /\ size m' = 0.
Proof.
  destruct (empties_intro 1 80 (fun _ => 0) [Push ([7], [1;2;3]); Push ([8], [4;5])] ([9], repeat 0 60)) as (es & m & m' & E1 & E2 & E3 & E4);
    [vm_compute; reflexivity|].
  exists 1%nat, 80, (fun _ => 0), [Push ([7], [1;2;3]); Push ([8], [4;5])], ([9], repeat 0 60), es, m, m'. split; [lia|]. split.
  - intros x [H|[H|[]]]; injection H as <-; (split; [reflexivity|]); (split; [|split]); try (cbn; lia);
      repeat (apply Forall_cons; [unfold is_byte; lia|]); apply Forall_nil.
  - split.
    + split; [reflexivity|]. split; [apply Forall_cons; [unfold is_byte; lia|apply Forall_nil]|]. split; [|cbn; lia].
      apply Forall_forall. intros x Hx. apply repeat_spec in Hx. subst. unfold is_byte. lia.
    + auto.
Qed.
Print Assumptions C18_hopeless_push_keeps_items_refuted.
Example C18_nonvacuous : let ops := [Push ([7], [1;2;3]); Push ([8], [4;5]); Pop 10; Push ([9], [6;6;6;6]); Push ([5], [1;2;3;4;5]); Pop 1; Pop 2; Pop 10; Pop 10] in
  option_map fst (run 1 72 false ops (init (fun x => x) 72)) =
   Some [EPushed; EPushed; EPopped [7] 3 (Some [1;2;3]); EPushed; ERefused; EPopped [8] 2 None; EPopped [8] 2 (Some [4;5]); EPopped [9] 4 (Some [6;6;6;6]); EEmpty].
Proof. vm_compute. reflexivity. Qed.
Example C18_grow_nonvacuous : option_map (fun r => (fst (fst r), snd (fst r))) (grun 1 (fun _ => 3) [Push ([7], [1;2;3]); Push ([8], [4;5]); Push ([9], [6]); Pop 5; Pop 5; Pop 5] 48 (init (fun x => x) 48)) =
  Some ([EPushed; EPushed; EPushed; EPopped [7] 3 (Some [1;2;3]); EPopped [8] 2 (Some [4;5]); EPopped [9] 1 (Some [6])], 96).
Proof. vm_compute. reflexivity. Qed.

(** * C19 *)
(** In every reachable state the items lie in pairwise disjoint blocks inside the memory
    area, after the queue header, and no byte outside the area was written. *)
Theorem C19_inside_and_disjoint : forall tsz cap del m0 ops, 24 < cap < 2 ^ 31 -> ops_ok tsz ops ->
  exists es m q, run tsz cap del ops (init m0 cap) = Some (es, m) /\ fifo_run cap del ops [] es q
   /\ layout_ok tsz cap m q /\ 24 + used q <= cap /\ (forall x, x < 0 \/ cap <= x -> m x = m0 x).
Proof.
  intros tsz cap del m0 ops Hc Ho. destruct (init_inv tsz cap Hc m0) as [I Fr0].
  destruct (run_ok tsz cap Hc del ops _ [] I Ho) as (es & m & L & E & I' & F & Fr).
  exists es, m, (map snd L). split; [exact E|]. split; [exact F|]. split; [apply inv_layout; exact I'|]. split; [eapply inv_used; exact I'|].
  intros x Hx. rewrite Fr by exact Hx. apply Fr0, Hx.
Qed.
Print Assumptions C19_inside_and_disjoint.
(** Refuted for blocks of 2 GB and more: the size computed in an int is negative, the
    check passes and the copy leaves the block. *)
Theorem C19_huge_block_refuted : forall tsz cap m0 del t data, 24 < cap < 2 ^ 31 -> zlen t = Z.of_nat tsz ->
  2 ^ 31 <= 12 + Z.of_nat tsz + zlen data < 2 ^ 32 ->
  push tsz cap del t data (init m0 cap) = OutOfBlock.
Proof. exact huge_push. Qed.
Print Assumptions C19_huge_block_refuted.
Example C19_nonvacuous : let ops := [Push ([7], [1;2;3]); Push ([8], [4;5]); Pop 10; Push ([9], [6;6;6;6]); Pop 5; Push ([5], [1])] in
  option_map (fun r => (size (snd r), start_offset (snd r), end_offset (snd r))) (run 1 72 false ops (init (fun x => x) 72)) = Some (2, 55, 24).
Proof. vm_compute. reflexivity. Qed.
