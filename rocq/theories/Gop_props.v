(** C85: listing the groups of pictures. *)
From Coq Require Import ZifyNat.
From Verif Require Import Util RangeMap_model SampleTab_model TimeTab_model Walk_model Cut_model Gop_model Gop_proofs.
Local Open Scope Z_scope.

(** From the key frame in force at the start: the key frames one after the other, each with its
    own number, presentation and decoding time, up to two past the first which is shown at or after
    the end; at the end of the track the last one again. *)
Theorem C85_listing : forall rs flags k K n duration start end_, timed rs k -> offsets_ok k -> keyed flags k -> orderly flags k K -> nth K flags false = true ->
  (K = 0%nat \/ decoded k K < start) -> 0 <= start -> start * k_ts k < 2 ^ 64 -> start < ends k -> (forall j, (K < j)%nat -> nth j flags false = true -> start < decoded k j) -> (length flags + 2 <= n)%nat ->
  let ks := keys_from flags K in let c := before k (until duration end_) ks in
  gop_list n k duration start end_ = Some (map (true_row k) (firstn (match c with O => 1 | _ => c + 2 end)%nat (ks ++ [last ks 0%nat]))).
Proof. exact listing. Qed.
Print Assumptions C85_listing.
(** So no key frame shown before the end is missing, and nothing but key frames is listed. *)
Theorem C85_complete : forall rs flags k K n duration start end_, timed rs k -> offsets_ok k -> keyed flags k -> orderly flags k K -> nth K flags false = true ->
  (K = 0%nat \/ decoded k K < start) -> 0 <= start -> start * k_ts k < 2 ^ 64 -> start < ends k -> (forall j, (K < j)%nat -> nth j flags false = true -> start < decoded k j) -> (length flags + 2 <= n)%nat ->
  exists rows, gop_list n k duration start end_ = Some rows /\ (forall r, In r rows -> exists j, (K <= j)%nat /\ nth j flags false = true /\ r = true_row k j)
  /\ forall j, (K <= j)%nat -> nth j flags false = true -> shown k j < until duration end_ -> In (true_row k j) rows.
Proof. exact listing_all. Qed.
Print Assumptions C85_complete.
(** A track of eight frames of 40 ms, key frames 0, 2, 4 and 6, shown 40 ms after they are decoded *)
Definition ex_track (ts : Z) (stts : list (nat * Z)) (offs : list Z) (flags : list bool) : trk :=
  match parse_stts (0 :: Z.of_nat (length stts) :: enc2 stts), parse_stss (skipn 2 (write_stss (iframes 0 flags))) with
  | Some (times, tb, _), Some (m, _) => mkTrk (mkT times offs (match offs with [] => false | _ => true end) [] tb (Some m)) ts (map (fun i => (100 + 10 * Z.of_nat i, 10)) (seq 0 (length flags))) 0 0 0 false 0
  | _, _ => mkTrk (mkT [] [] false [] [] None) 0 [] 0 0 0 false 0
  end.
Definition ex_flags : list bool := [true; false; true; false; true; false; true; false].
Definition ex_gops : trk := ex_track 1000 [(8%nat, 40)] (repeat 40 8) ex_flags.
Ltac ex_timed := split; [apply Forall_cons; [cbn [fst]; lia|apply Forall_nil]|]; split; [apply Forall_cons; [cbn [snd]; lia|apply Forall_nil]|]; split; [discriminate|]; split; [vm_compute; reflexivity|];
  split; [vm_compute; reflexivity|]; split; [vm_compute; reflexivity|];
  match goal with |- 0 < ?a <= _ /\ _ < _ /\ 0 <= ?b < _ => let x := eval vm_compute in a in let y := eval vm_compute in b in change a with x; change b with y end; split; [lia|]; split; [vm_compute; reflexivity|lia].
Ltac ex_offsets := unfold offsets_ok; match goal with |- Forall _ (t_offsets (k_track ?x)) => let y := eval vm_compute in (t_offsets (k_track x)) in change (t_offsets (k_track x)) with y end; repeat (apply Forall_cons; [lia|]); apply Forall_nil.
Lemma ex_gops_timed : timed [(8%nat, 40)] ex_gops.
Proof. ex_timed. Qed.
Lemma ex_orderly : orderly ex_flags ex_gops 0.
Proof.
  intros j _ K. assert (J : (j < 8)%nat). { destruct (Nat.lt_ge_cases j 8) as [|G]; [assumption|]. rewrite nth_overflow in K by (cbn; lia). discriminate. }
  do 8 (destruct j as [|j]; [first [discriminate K|split; [left; reflexivity|]; split; [vm_compute; reflexivity|]; intros j' L K'; assert (J' : (j' < 8)%nat) by (destruct (Nat.lt_ge_cases j' 8) as [|G]; [assumption|]; rewrite nth_overflow in K' by (cbn; lia); discriminate);
    do 8 (destruct j' as [|j']; [first [discriminate K'|lia|vm_compute; reflexivity]|]); lia]|]). lia.
Qed.
Example C85_nonvacuous : timed [(8%nat, 40)] ex_gops /\ offsets_ok ex_gops /\ keyed ex_flags ex_gops /\ orderly ex_flags ex_gops 0 /\ ends ex_gops = 3200000
  /\ gop_list 10 ex_gops 3200000 0 1000000 = Some [mkRow 0 400000 0; mkRow 2 1200000 800000; mkRow 4 2000000 1600000]
  /\ gop_list 10 ex_gops 3200000 1000000 0 = Some [mkRow 2 1200000 800000; mkRow 4 2000000 1600000; mkRow 6 2800000 2400000; mkRow 6 2800000 2400000].
Proof.
  split; [exact ex_gops_timed|]. split; [ex_offsets|]. split; [split; [reflexivity|eexists; split; [vm_compute; reflexivity|vm_compute; reflexivity]]|]. split; [exact ex_orderly|].
  split; [vm_compute; reflexivity|]. split; vm_compute; reflexivity.
Qed.
(** Refuted: the last key frame is listed twice. *)
Theorem C85_twice_refuted : exists rs flags k, timed rs k /\ offsets_ok k /\ keyed flags k /\ orderly flags k 0 /\ exists a b r, gop_list (length flags + 2) k (ends k) 0 0 = Some (a ++ [r; r] ++ b).
Proof.
  exists [(8%nat, 40)], ex_flags, ex_gops. destruct C85_nonvacuous as (H1 & H2 & H3 & H4 & _). do 4 (split; [assumption|]). exists [mkRow 0 400000 0; mkRow 2 1200000 800000; mkRow 4 2000000 1600000], [], (mkRow 6 2800000 2400000). vm_compute. reflexivity.
Qed.
Print Assumptions C85_twice_refuted.
(** Refuted when the time of the second key frame is no whole number of units of 100 ns and
    decoding is not before presentation: the first key frame is named three times, twice with the
    time of the second, and the listing ends there, however many follow. *)
Theorem C85_stops_refuted : forall rs flags k J d n duration end_, timed rs k -> offsets_ok k -> keyed flags k -> t_offsets (k_track k) = [] -> nth 0 flags false = true -> nth J flags false = true -> (0 < J)%nat -> (forall i, (0 < i < J)%nat -> nth i flags false = false) ->
  decoding_time (k_track k) (Z.of_nat J) = Some d -> (10000000 * d) mod k_ts k <> 0 -> 0 < until duration end_ -> (3 <= n)%nat ->
  gop_list n k duration 0 end_ = Some [mkRow 0 0 0; mkRow 0 (shown k J) 0; mkRow 0 (shown k J) 0].
Proof. exact truncated. Qed.
Print Assumptions C85_stops_refuted.
(** as in a film of 29.97 frames a second *)
Definition ex_film : trk := ex_track 30000 [(8%nat, 1001)] [] ex_flags.
Example C85_stops_nonvacuous : timed [(8%nat, 1001)] ex_film /\ offsets_ok ex_film /\ keyed ex_flags ex_film /\ decoding_time (k_track ex_film) 2 = Some 2002 /\ (10000000 * 2002) mod 30000 <> 0
  /\ gop_list 10 ex_film 2669333 0 0 = Some [mkRow 0 0 0; mkRow 0 667333 0; mkRow 0 667333 0].
Proof.
  split.
  { ex_timed. }
  split; [constructor|]. split; [split; [reflexivity|eexists; split; [vm_compute; reflexivity|vm_compute; reflexivity]]|]. split; [vm_compute; reflexivity|]. split; [vm_compute; discriminate|vm_compute; reflexivity].
Qed.
(** Refuted for a track without a table of key frames, in which every frame is one: only the first
    row is printed, and only if the listing ends there; otherwise an empty table is read. *)
Theorem C85_no_table_refuted : forall n k duration start end_ rows, t_keys (k_track k) = None -> gop_list n k duration start end_ = Some rows -> exists r, rows = [r] /\ (until duration end_ <= r_time r \/ 2 ^ 64 - 1 <= r_time r).
Proof. exact no_table. Qed.
Print Assumptions C85_no_table_refuted.
Example C85_no_table_nonvacuous : let k := mkTrk (mkT [(0, 40); (40, 40)] [] false [] [(0, mkD 0 0 40); (80, mkD 0 0 40)] None) 1000 [(100, 10); (110, 10)] 0 0 0 false 0 in
  gop_list 10 k 800000 400000 400000 = Some [mkRow 1 400000 400000] /\ gop_list 10 k 800000 0 0 = None.
Proof. split; vm_compute; reflexivity. Qed.
