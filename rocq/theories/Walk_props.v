(** C53: reading the samples of all streams in file order.  Statements only; see Walk_model for
    the vocabulary. *)
From Coq Require Import Sorted.
From Verif Require Import Util SampleTab_model SampleTab_proofs Walk_model Walk_proofs.
Local Open Scope Z_scope.

(** The loop ends, after one round for every sample that is left, and saw every such sample of
    every stream once, each stream in its own order; whatever the order of the samples in the
    file, the state the reader was left in, and the positions the streams were moved to. *)
Theorem C53_complete : forall r n, readable r -> (remaining r < n)%nat -> exists l r', walk n r = Some (l, r') /\ length l = remaining r
  /\ (forall i st, nth_error (r_streams r) i = Some st -> of_stream i l = rest st) /\ (forall i x, In (i, x) l -> (i < length (r_streams r))%nat)
  /\ (forall st, In st (r_streams r') -> rest st = []).
Proof. intros r n R L. destruct (walk_complete r n R L) as (l & r' & A & B & C & D & E). exists l, r'. auto. Qed.
Print Assumptions C53_complete.
(** If no two samples overlap and every stream is stored in order, the samples are seen in the
    order in which they are in the file, from the start or after a seek. *)
Theorem C53_file_order : forall r n l r', readable r -> (remaining r < n)%nat -> r_last r = 0 -> walk n r = Some (l, r') ->
  (forall st, In st (r_streams r) -> StronglySorted before (rest st) /\ Forall (fun x => 0 < s_size x) (rest st)) ->
  (forall i j st st' x y, nth_error (r_streams r) i = Some st -> nth_error (r_streams r) j = Some st' -> i <> j -> In x (rest st) -> In y (rest st') -> apart x y) ->
  StronglySorted before (map snd l).
Proof.
  intros r n l r' R L Z W T1 T2. refine (proj1 (walk_ordered r n l r' 0 R (conj T1 T2) _ (or_introl Z) L W)).
  intros st x I J. destruct R as (_ & R). specialize (R st I). rewrite Forall_forall in R. destruct (R x J) as (? & _). assumption.
Qed.
Print Assumptions C53_file_order.
(** Two streams in chunks, the second moved to its second sample *)
Example C53_nonvacuous : let s o z := mkS o z 0 0 0 true in
  let r := mkRd [mkStream [s 100 10; s 110 20; s 160 5] 0; mkStream [s 130 10; s 140 20; s 165 9] 1; mkStream [] 0] 0 200 in
  readable r /\ remaining r = 5%nat /\ (forall st, In st (r_streams r) -> StronglySorted before (rest st) /\ Forall (fun x => 0 < s_size x) (rest st))
  /\ exists r', walk 6 r = Some ([(0%nat, s 100 10); (0%nat, s 110 20); (1%nat, s 140 20); (0%nat, s 160 5); (1%nat, s 165 9)], r').
Proof.
  cbv zeta. split; [|split; [reflexivity|split]].
  - split; [cbn; lia|]. intros st [<-|[<-|[<-|[]]]]; unfold rest; cbn [st_cur st_samples skipn r_mdat_end]; repeat (apply Forall_cons; [unfold inside; cbn [s_off s_size]; lia|]); apply Forall_nil.
  - intros st [<-|[<-|[<-|[]]]]; unfold rest; cbn [st_cur st_samples skipn]; (split; [repeat (apply SSorted_cons; [|repeat (apply Forall_cons; [unfold before; cbn [s_off s_size]; lia|]); apply Forall_nil]); apply SSorted_nil|repeat (apply Forall_cons; [cbn [s_size]; lia|]); apply Forall_nil]).
  - eexists. vm_compute. reflexivity.
Qed.
(** Whatever the tables say, no sample outside the media data is handed to the loop. *)
Theorem C53_inside : forall n r l r', (forall st x, In st (r_streams r) -> In x (st_samples st) -> 0 <= s_off x < 2 ^ 63 /\ 0 <= s_size x < 2 ^ 63) ->
  walk n r = Some (l, r') -> forall i x, In (i, x) l -> inside (r_mdat_end r) x.
Proof. exact walk_inside. Qed.
Print Assumptions C53_inside.
Example C53_inside_nonvacuous : let s o z := mkS o z 0 0 0 true in exists r', walk 9 (mkRd [mkStream [s 100 10; s 110 5000; s 120 5] 0; mkStream [s 115 2] 0] 0 200) = Some ([(0%nat, s 100 10)], r').
Proof. cbv zeta. eexists. vm_compute. reflexivity. Qed.
(** Refuted: a damaged entry costs one sample.  Reading stops there, and every sample stored
    after it is lost. *)
Theorem C53_damaged_refuted : forall good bad after_ e, 0 < s_off good -> 0 <= s_size good -> s_off good + s_size good <= e -> s_off bad = s_off good + s_size good -> e < 2 ^ 62 -> e < s_off bad + s_size bad -> s_size bad < 2 ^ 62 ->
  forall n, (1 < n)%nat -> exists r', walk n (mkRd [mkStream (good :: bad :: after_) 0] 0 e) = Some ([(0%nat, good)], r').
Proof.
  intros good bad aft e G1 G2 G3 B1 E B2 B3 n N. destruct n as [|[|n]]; try lia. rewrite walk_S. unfold next at 1. cbn [r_streams r_last].
  assert (A1 : attempt 15 [mkStream (good :: bad :: aft) 0] 0 = (Some 0%nat, s_off good)).
  { rewrite attempt_S. destruct (Z.eqb_spec 0 0); [|lia]. cbn [scan_min st_samples pick st_cur nth_error length]. unfold pick. cbn [st_samples st_cur nth_error]. destruct (Z.ltb_spec (s_off good) U64MAX); [reflexivity|unfold U64MAX in *; lia]. }
  rewrite A1. cbn [nth_error]. unfold pick. cbn [st_samples st_cur nth_error r_mdat_end set_nth_stream]. rewrite u64_id by lia.
  destruct (Z.leb_spec (s_off good + s_size good) e); [|lia]. rewrite walk_S. unfold next at 1. cbn [r_streams r_last].
  assert (A2 : attempt 15 [move_next (mkStream (good :: bad :: aft) 0)] (s_off good + s_size good) = (Some 0%nat, s_off bad)).
  { rewrite attempt_S. destruct (Z.eqb_spec (s_off good + s_size good) 0); [lia|]. cbn [scan_eq move_next Nat.ltb Nat.leb length st_samples st_cur]. unfold move_next, pick. cbn [st_samples st_cur nth_error length Nat.ltb Nat.leb]. rewrite <- B1, Z.eqb_refl. reflexivity. }
  rewrite A2. cbn [nth_error]. unfold move_next, pick. cbn [st_samples st_cur nth_error length Nat.ltb Nat.leb r_mdat_end]. rewrite u64_id by lia.
  destruct (Z.leb_spec (s_off bad + s_size bad) e); [lia|]. eexists. reflexivity.
Qed.
Print Assumptions C53_damaged_refuted.
Example C53_damaged_nonvacuous : let s o z := mkS o z 0 0 0 true in exists r', walk 9 (mkRd [mkStream [s 100 10; s 110 500; s 120 5; s 125 5] 0] 0 200) = Some ([(0%nat, s 100 10)], r').
Proof. cbv zeta. eexists. vm_compute. reflexivity. Qed.
