(** Proofs about Cut_model. *)
From Coq Require Import Permutation Sorted ZifyNat.
From Verif Require Import Util RangeMap_model SampleTab_model SampleTab_proofs TimeTab_model TimeTab_proofs TimeTab_proofs2 TimeTab_proofs3 TimeTab_proofs4 Walk_model Walk_proofs Cut_model.
Local Open Scope Z_scope.

(** ** The loop *)
Lemma frames_S : forall n r id off start end_, frames (S n) r id off start end_ = match next r with
    | (r, Some (i, x, true)) => if (i =? id)%nat then if end_ <=? u64 (s_comp x + off) then Some [] else match frames n r id off start end_ with Some l => Some (if u64 (s_comp x + off) <? start then l else x :: l) | None => None end else frames n r id off start end_
    | _ => Some [] end.
Proof. reflexivity. Qed.
Lemma frames_eq : forall n r id off start end_ st, readable r -> (remaining r < n)%nat -> nth_error (r_streams r) id = Some st -> Forall (fun x => 0 <= s_comp x + off < 2 ^ 64) (rest st) ->
  frames n r id off start end_ = Some (filter (fun x => start <=? s_comp x + off) (while (fun x => s_comp x + off <? end_) (rest st))).
Proof.
  induction n as [|n IH]; intros r id off start end_ st R L N F; [lia|]. rewrite frames_S. destruct (some_pick_dec (r_streams r)) as [E|NP].
  - destruct (next_some r R E) as (i & st' & x & H1 & H2 & H3 & _). rewrite H3. pose proof (rem_set _ _ _ _ _ H1 H2) as RS.
    specialize (IH (mkRd (set_nth_stream i (move_next st') (r_streams r)) (s_off x + s_size x) (r_mdat_end r)) id off start end_).
    pose proof (readable_next r i st' x (s_off x + s_size x) R H1 H2) as R'. assert (L' : (remaining (mkRd (set_nth_stream i (move_next st') (r_streams r)) (s_off x + s_size x) (r_mdat_end r)) < n)%nat) by (unfold remaining in *; cbn [r_streams]; lia).
    destruct (Nat.eqb_spec i id) as [->|NE].
    + rewrite N in H1. injection H1 as <-. rewrite H2 in F |- *. inversion F as [|? ? F1 F2]. subst. rewrite u64_id by lia. cbn [while].
      rewrite (Z.leb_antisym (s_comp x + off) end_). destruct (s_comp x + off <? end_) eqn:C; cbn [negb]; [|reflexivity].
      rewrite (IH (move_next st) R' L') by (auto; cbn [r_streams]; rewrite (nth_set_stream _ _ _ _ N), Nat.eqb_refl; reflexivity). cbn [filter].
      rewrite (Z.leb_antisym (s_comp x + off) start). destruct (s_comp x + off <? start); reflexivity.
    + apply IH; auto. cbn [r_streams]. rewrite (nth_set_stream _ _ _ _ H1). destruct (Nat.eqb_spec id i); [congruence|exact N].
  - destruct (next_none r NP) as (l & H). rewrite H. rewrite (no_pick_rest _ NP st (nth_error_In _ _ N)). reflexivity.
Qed.
(** ** Lists *)
Lemma while_all : forall {A} (P : A -> bool) l, Forall (fun x => P x = true) l -> while P l = l.
Proof. induction l; intros F; [reflexivity|]. inversion F. subst. cbn [while]. rewrite H1, IHl by assumption. reflexivity. Qed.
Lemma while_app : forall {A} (P : A -> bool) a b, Forall (fun x => P x = true) a -> while P (a ++ b) = a ++ while P b.
Proof. induction a; intros b F; [reflexivity|]. inversion F. subst. cbn [while app]. rewrite H1, IHa by assumption. reflexivity. Qed.
Lemma filter_none : forall {A} (P : A -> bool) l, Forall (fun x => P x = false) l -> filter P l = [].
Proof. induction l; intros F; [reflexivity|]. inversion F. subst. cbn [filter]. rewrite H1. auto. Qed.
Lemma filter_full : forall {A} (P : A -> bool) l, Forall (fun x => P x = true) l -> filter P l = l.
Proof. induction l; intros F; [reflexivity|]. inversion F. subst. cbn [filter]. rewrite H1, IHl by assumption. reflexivity. Qed.
Lemma cut_sorted : forall (f : sample -> Z) s e l, StronglySorted (fun a b => f a <= f b) l -> filter (fun x => s <=? f x) (while (fun x => f x <? e) l) = filter (fun x => (s <=? f x) && (f x <? e)) l.
Proof.
  induction l as [|x l IH]; intros Ss; [reflexivity|]. inversion Ss. subst. cbn [while filter]. destruct (Z.ltb_spec (f x) e).
  - cbn [filter]. rewrite IH by assumption. destruct (s <=? f x); reflexivity.
  - rewrite andb_false_r. symmetry. apply filter_none. apply Forall_forall. intros y I. rewrite Forall_forall in H2. specialize (H2 y I). cbv beta in H2. destruct (Z.ltb_spec (f y) e); [lia|apply andb_false_r].
Qed.
Lemma sorted_skipn : forall {A} (R : A -> A -> Prop) l n, StronglySorted R l -> StronglySorted R (skipn n l).
Proof. induction l as [|x l IH]; intros [|n] Ss; cbn [skipn]; auto. inversion Ss. auto. Qed.
Lemma cut_from : forall (f : sample -> Z) s e l c, StronglySorted (fun a b => f a <= f b) l -> Forall (fun x => f x < s) (firstn c l) ->
  filter (fun x => s <=? f x) (while (fun x => f x <? e) (skipn c l)) = filter (fun x => (s <=? f x) && (f x <? e)) l.
Proof.
  intros f s e l c Ss F. rewrite cut_sorted by (apply sorted_skipn; exact Ss). rewrite <- (firstn_skipn c l) at 2. rewrite filter_app.
  rewrite (filter_none _ (firstn c l)); [reflexivity|]. eapply Forall_impl; [|exact F]. intros x H. cbv beta in *. destruct (Z.leb_spec s (f x)); [lia|reflexivity].
Qed.
Lemma cut_slice : forall (f : sample -> Z) s e l c a b, (c <= a <= b)%nat -> (b <= length l)%nat -> s <= e -> Forall (fun x => f x < s) (firstn a l) -> Forall (fun x => s <= f x < e) (firstn (b - a) (skipn a l)) ->
  (forall x r, skipn b l = x :: r -> e <= f x) -> filter (fun x => s <=? f x) (while (fun x => f x <? e) (skipn c l)) = firstn (b - a) (skipn a l).
Proof.
  intros f s e l c a b H1 H2 SE F1 F2 F3.
  assert (X : skipn c l = firstn (a - c) (skipn c l) ++ firstn (b - a) (skipn a l) ++ skipn b l).
  { assert (E2 : firstn (b - a) (skipn a l) ++ skipn b l = skipn a l).
    { rewrite <- (firstn_skipn (b - a) (skipn a l)) at 2. rewrite skipn_skipn. replace (b - a + a)%nat with b by lia. reflexivity. }
    rewrite E2. rewrite <- (firstn_skipn (a - c) (skipn c l)) at 1. rewrite skipn_skipn. replace (a - c + c)%nat with a by lia. reflexivity. }
  assert (F1' : Forall (fun x => f x < s) (firstn (a - c) (skipn c l))).
  { rewrite <- (firstn_skipn c l) in F1. rewrite firstn_app in F1. apply Forall_app in F1 as (_ & F1). rewrite firstn_length in F1. replace (a - Nat.min c (length l))%nat with (a - c)%nat in F1 by lia. exact F1. }
  rewrite X. rewrite !app_assoc, <- app_assoc. rewrite while_app.
  - rewrite filter_app, filter_none, app_nil_l.
    + rewrite while_app.
      * rewrite filter_app, filter_full.
        -- destruct (skipn b l) as [|x r] eqn:Q; [apply app_nil_r|]. specialize (F3 x r eq_refl). cbn [while]. destruct (Z.ltb_spec (f x) e); [lia|]. apply app_nil_r.
        -- eapply Forall_impl; [|exact F2]. intros x Hx. cbv beta in *. apply Z.leb_le. lia.
      * eapply Forall_impl; [|exact F2]. intros x Hx. cbv beta in *. apply Z.ltb_lt. lia.
    + eapply Forall_impl; [|exact F1']. intros x Hx. cbv beta in *. apply Z.leb_gt. lia.
  - eapply Forall_impl; [|exact F1']. intros x Hx. cbv beta in *. apply Z.ltb_lt. lia.
Qed.
(** ** The tables *)
Definition D (k : trk) (i : nat) : Z := fst (nth i (t_times (k_track k)) (0, 0)).
Definition C (k : trk) (i : nat) : Z := D k i + nth i (t_offsets (k_track k)) 0.
Lemma track_eta : forall t, mkT (t_times t) (t_offsets t) (t_has_ctts t) (t_order t) (t_table t) (t_keys t) = t. Proof. intros []. reflexivity. Qed.
Lemma expand_pos : forall rs, Forall (fun r => 0 < snd r < 2 ^ 32) rs -> Forall (fun x => 0 < x < 2 ^ 32) (expand rs).
Proof. intros rs F2. unfold expand. apply Forall_concat, Forall_map. eapply Forall_impl; [|exact F2]. intros [a b] Hb. cbn [fst snd] in *. apply Forall_forall. intros x Hx. apply repeat_spec in Hx. lia. Qed.
Lemma zsum_S : forall l j, (j < length l)%nat -> zsum (firstn (S j) l) = zsum (firstn j l) + nth j l 0.
Proof. induction l as [|x l IH]; intros j Hj; [cbn in Hj; lia|]. destruct j as [|j]; [cbn; lia|]. cbn [length] in Hj. change (firstn (S (S j)) (x :: l)) with (x :: firstn (S j) l). change (firstn (S j) (x :: l)) with (x :: firstn j l). rewrite !zsum_cons, IH by lia. cbn [nth]. lia. Qed.
Lemma zsum_mono : forall l m j, Forall (fun x => 0 < x) l -> (m + j <= length l)%nat -> zsum (firstn m l) + Z.of_nat j <= zsum (firstn (m + j) l).
Proof.
  intros l m j F. induction j as [|j IH]; intros Hj; [rewrite Nat.add_0_r; lia|]. rewrite Nat.add_succ_r, zsum_S by lia. specialize (IH ltac:(lia)).
  assert (X : (m + j < length l)%nat) by lia. rewrite Forall_forall in F. specialize (F (nth (m + j) l 0) (nth_In l 0 X)). lia.
Qed.
Lemma timed_facts : forall rs k, timed rs k -> length (t_times (k_track k)) = length (k_places k) /\ (0 < length (k_places k))%nat /\ D k 0 = 0
  /\ (forall i j, (i < j)%nat -> (j < length (k_places k))%nat -> D k i < D k j) /\ (forall i, (i < length (k_places k))%nat -> 0 <= D k i < zsum (expand rs))
  /\ 0 < zsum (expand rs)
  /\ forall q, 0 <= q < 2 ^ 63 -> exists s, decoding_sample (k_track k) q = Some s /\ 0 <= s /\ (q < zsum (expand rs) -> s < Z.of_nat (length (k_places k))) /\ forall i, (i < length (k_places k))%nat -> D k i <= q <-> Z.of_nat i <= s.
Proof.
  intros rs k (F1 & F2 & N & B & P & L & TS & ZB & OB). destruct (any_stts rs [] (t_offsets (k_track k)) (t_has_ctts (k_track k)) (t_order (k_track k)) (t_keys (k_track k)) F1 F2 N B) as (times & tb & E1 & E2 & E3).
  rewrite app_nil_r, P in E1. injection E1 as <- <-. rewrite track_eta in E3. pose proof (expand_pos rs F2) as FX.
  assert (FP : Forall (fun x => 0 < x) (expand rs)) by (eapply Forall_impl; [|exact FX]; intros x Hx; cbv beta in Hx; lia).
  assert (LT : length (t_times (k_track k)) = length (k_places k)) by (rewrite E2, times_of_length; auto).
  assert (DN : forall i, (i < length (k_places k))%nat -> D k i = zsum (firstn i (expand rs)) /\ snd (nth i (t_times (k_track k)) (0, 0)) = nth i (expand rs) 0).
  { intros i Hi. unfold D. rewrite E2, times_of_nth by lia. cbn [fst snd]. split; [lia|reflexivity]. }
  assert (LP : (0 < length (expand rs))%nat).
  { destruct rs as [|[n c] rs]; [congruence|]. rewrite expand_cons, app_length, repeat_length. inversion F1. cbn [fst] in *. lia. }
  assert (MO : forall i j, (i <= j)%nat -> (j <= length (expand rs))%nat -> zsum (firstn i (expand rs)) + Z.of_nat (j - i) <= zsum (firstn j (expand rs))).
  { intros i j H1 H2. pose proof (zsum_mono (expand rs) i (j - i) FP ltac:(lia)) as Q. replace (i + (j - i))%nat with j in Q by lia. exact Q. }
  assert (DZ : forall i, (i < length (k_places k))%nat -> 0 <= D k i < zsum (expand rs)).
  { intros i Hi. destruct (DN i Hi) as (Q & _). rewrite Q. pose proof (MO 0%nat i ltac:(lia) ltac:(lia)) as M1. rewrite firstn_O in M1. change (zsum []) with 0 in M1. pose proof (MO i (length (expand rs)) ltac:(lia) ltac:(lia)) as M2. rewrite firstn_all in M2. lia. }
  split; [exact LT|]. split; [lia|]. split; [destruct (DN 0%nat ltac:(lia)) as (Q & _); rewrite Q; reflexivity|]. split.
  { intros i j H1 H2. destruct (DN i ltac:(lia)) as (Q1 & _). destruct (DN j ltac:(lia)) as (Q2 & _). rewrite Q1, Q2. pose proof (MO i j ltac:(lia) ltac:(lia)). lia. }
  split; [exact DZ|]. split; [specialize (DZ 0%nat ltac:(lia)); lia|].
  intros q Hq. destruct (E3 q Hq) as (A & A'). destruct (Z.lt_ge_cases q (zsum (expand rs))) as [LTq|GE].
  - destruct (A LTq) as (i & G1 & G2 & G3). exists (Z.of_nat i). split; [exact G1|]. split; [lia|]. split; [lia|]. fold (D k i) in G3. destruct (DN i ltac:(lia)) as (Q1 & Q2). rewrite Q1, Q2, <- zsum_S in G3 by lia.
    intros j Hj. destruct (DN j Hj) as (Q3 & _). rewrite Q3. split; intros H.
    + destruct (Nat.le_gt_cases j i); [lia|]. pose proof (MO (S i) j ltac:(lia) ltac:(lia)). lia.
    + pose proof (MO j i ltac:(lia) ltac:(lia)). lia.
  - destruct (A' GE) as (s & G1 & G2). exists s. split; [exact G1|]. split; [lia|]. split; [lia|]. intros j Hj. specialize (DZ j Hj). split; lia.
Qed.
Lemma decoding_at : forall k i, (i < length (t_times (k_track k)))%nat -> decoding_time (k_track k) (Z.of_nat i) = Some (D k i).
Proof. intros k i H. unfold decoding_time, D. destruct (Z.ltb_spec (Z.of_nat i) 0); [lia|]. rewrite Nat2Z.id, (nth_error_nth' _ (0, 0) H). reflexivity. Qed.
Lemma composition_at : forall k i, (i < length (t_times (k_track k)))%nat -> composition_time (k_track k) (Z.of_nat i) = Some (u64 (C k i)).
Proof. intros k i H. unfold composition_time. rewrite decoding_at by exact H. cbn [option_map]. rewrite Nat2Z.id. reflexivity. Qed.
Lemma of_hns_range : forall ts time, 0 <= of_hns ts time < 2 ^ 63.
Proof. intros. unfold of_hns. assert (0 <= u64 (time * ts) < 2 ^ 64) by (unfold u64; apply Z.mod_pos_bound; lia). split; [apply Z.div_pos; lia|]. apply Z.div_lt_upper_bound; lia. Qed.

(** ** Searching in a steady track *)
Definition finds (k : trk) : Prop := forall time, exists s, composition_sample_hns (k_ts k) (k_track k) time = Some (Z.of_nat s) /\ (s < length (k_places k))%nat /\ forall i, (i < s)%nat -> u64 (C k i) < of_hns (k_ts k) time.
Lemma timed_small : forall rs k i, timed rs k -> (i < length (k_places k))%nat -> 0 <= D k i /\ 10000000 * D k i < 2 ^ 63.
Proof. intros rs k i T Hi. pose proof (timed_facts rs k T) as (_ & _ & _ & _ & DZ & _). destruct T as (_ & _ & _ & _ & _ & _ & _ & ZB & _). specialize (DZ i Hi). lia. Qed.
Lemma finds_ok : forall rs k, timed rs k -> steady k -> finds k.
Proof.
  intros rs k T (K1 & K2 & CT) time. pose proof (timed_facts rs k T) as (LT & LP & D0 & DI & DZ & ZP & SR). pose proof (of_hns_range (k_ts k) time) as Q. set (q := of_hns (k_ts k) time) in *.
  unfold composition_sample_hns, composition_sample. fold q. rewrite LT. destruct CT as [(H1 & H2)|(H1 & H2 & H3)]; rewrite H1.
  - destruct (SR q Q) as (s & E & S0 & S1 & SC). rewrite E.
    assert (CE : forall i, (i < length (k_places k))%nat -> u64 (C k i) = D k i).
    { intros i Hi. unfold C. rewrite H2. replace (nth i [] 0) with 0 by (destruct i; reflexivity). rewrite Z.add_0_r. pose proof (timed_small rs k i T Hi). apply u64_id. lia. }
    destruct (Z.eqb_spec s 0) as [->|Ns].
    { exists 0%nat. split; [reflexivity|]. split; [exact LP|]. intros; lia. }
    destruct (Z.leb_spec (Z.of_nat (length (k_places k))) s) as [G|G].
    { exists (length (k_places k) - 1)%nat. split; [f_equal; lia|]. split; [lia|]. intros i Hi. rewrite CE by lia. pose proof (DI i (length (k_places k) - 1)%nat ltac:(lia) ltac:(lia)). pose proof (proj2 (SC (length (k_places k) - 1)%nat ltac:(lia)) ltac:(lia)). lia. }
    replace s with (Z.of_nat (Z.to_nat s)) by lia. set (j := Z.to_nat s). assert (J : (j < length (k_places k))%nat) by lia. rewrite composition_at by lia. rewrite CE by exact J.
    assert (DJ : D k j <= q) by (apply SC; [exact J|lia]).
    destruct (Z.ltb_spec (D k j) q).
    + destruct (Z.leb_spec (Z.of_nat (length (k_places k))) (Z.of_nat j + 1)).
      * exists j. split; [f_equal; lia|]. split; [exact J|]. intros i Hi. rewrite CE by lia. pose proof (DI i j Hi J). lia.
      * exists (S j). split; [f_equal; lia|]. split; [lia|]. intros i Hi. rewrite CE by lia. destruct (Nat.eq_dec i j) as [->|NE]; [lia|]. pose proof (DI i j ltac:(lia) J). lia.
    + destruct (Z.leb_spec (Z.of_nat (length (k_places k))) (Z.of_nat j)); [lia|]. exists j. split; [reflexivity|]. split; [exact J|]. intros i Hi. rewrite CE by lia. pose proof (DI i j Hi J). lia.
  - set (ord := t_order (k_track k)) in *.
    assert (OE : forall i, (i < length (k_places k))%nat -> nth i ord (0, 0) = (u64 (C k i), Z.of_nat i)).
    { intros i Hi. destruct (H3 i Hi) as (c & A1 & A2 & _). rewrite composition_at in A1 by lia. injection A1 as <-. apply nth_error_nth with (d := (0, 0)) in A2. exact A2. }
    assert (CI : forall i j, (i < j)%nat -> (j < length (k_places k))%nat -> u64 (C k i) < u64 (C k j)).
    { intros i j. induction j as [|j IH]; intros Hij Hj; [lia|]. destruct (H3 j ltac:(lia)) as (c & A1 & _ & A3). rewrite composition_at in A1 by lia. injection A1 as <-.
      replace (Z.of_nat j + 1) with (Z.of_nat (S j)) in A3 by lia. rewrite composition_at in A3 by lia. specialize (A3 _ eq_refl). destruct (Nat.eq_dec i j) as [->|NE]; [exact A3|]. specialize (IH ltac:(lia) ltac:(lia)). lia. }
    assert (LB : (forall j, (j < lower_bound q ord)%nat -> u64 (C k j) < q) /\ (lower_bound q ord <= length ord)%nat).
    { assert (G : forall l a, (forall i, (i < length l)%nat -> fst (nth i l (0, 0)) = u64 (C k (a + i))) -> (forall j, (j < lower_bound q l)%nat -> u64 (C k (a + j)) < q) /\ (lower_bound q l <= length l)%nat).
      { induction l as [|x l IH]; intros a W; [split; [intros j Hj; cbn in Hj; lia|cbn; lia]|]. cbn [lower_bound length]. destruct (Z.ltb_spec (fst x) q); [|split; [intros; lia|lia]].
        destruct (IH (S a)) as (I1 & I2); [intros i Hi; specialize (W (S i) ltac:(cbn; lia)); cbn [nth] in W; rewrite W; f_equal; f_equal; lia|].
        split; [|lia]. intros [|j] Hj; [specialize (W 0%nat ltac:(cbn; lia)); cbn [nth] in W; rewrite <- W; assumption|]. specialize (I1 j ltac:(lia)). replace (a + S j)%nat with (S a + j)%nat by lia. exact I1. }
      apply (G ord 0%nat). intros i Hi. rewrite OE by lia. reflexivity. }
    destruct LB as (LB1 & LB2). set (i := lower_bound q ord) in *.
    destruct ((i <? length ord)%nat && (0 <? i)%nat) eqn:G.
    2: { destruct (Z.eqb_spec 0 0); [|lia]. exists 0%nat. split; [reflexivity|]. split; [exact LP|]. intros; lia. }
    apply andb_prop in G as (G1 & G2). apply Nat.ltb_lt in G1, G2.
    set (i' := if q <? fst (nth i ord (0, 0)) then (i - 1)%nat else i). assert (I' : (i' <= i)%nat) by (unfold i'; destruct (q <? fst (nth i ord (0, 0))); lia).
    rewrite OE by lia. cbn [snd]. assert (IB : forall j, (j < i')%nat -> u64 (C k j) < q) by (intros j Hj; apply LB1; lia).
    destruct (Z.eqb_spec (Z.of_nat i') 0) as [E|E].
    { exists 0%nat. split; [reflexivity|]. split; [exact LP|]. intros; lia. }
    destruct (Z.leb_spec (Z.of_nat (length (k_places k))) (Z.of_nat i')); [lia|]. rewrite composition_at by lia. destruct (Z.ltb_spec (u64 (C k i')) q).
    + destruct (Z.leb_spec (Z.of_nat (length (k_places k))) (Z.of_nat i' + 1)).
      * exists i'. split; [f_equal; lia|]. split; [lia|exact IB].
      * exists (S i'). split; [f_equal; lia|]. split; [lia|]. intros j Hj. destruct (Nat.eq_dec j i') as [->|NE]; [assumption|]. apply IB. lia.
    + destruct (Z.leb_spec (Z.of_nat (length (k_places k))) (Z.of_nat i')); [lia|]. exists i'. split; [reflexivity|]. split; [lia|exact IB].
Qed.
(** ** Moving *)
Lemma csh_total : forall rs k time, timed rs k -> Forall (fun x => 0 <= snd x) (t_order (k_track k)) -> exists s, composition_sample_hns (k_ts k) (k_track k) time = Some s.
Proof.
  intros rs k time T F. pose proof (timed_facts rs k T) as (LT & LP & _ & _ & _ & _ & SR). pose proof (of_hns_range (k_ts k) time) as Q. set (q := of_hns (k_ts k) time) in *.
  assert (S : exists s, composition_sample (k_track k) q = Some s /\ 0 <= s).
  { unfold composition_sample. destruct (t_has_ctts (k_track k)); [|destruct (SR q Q) as (s & E & S0 & _); eauto].
    destruct ((lower_bound q (t_order (k_track k)) <? length (t_order (k_track k)))%nat && (0 <? lower_bound q (t_order (k_track k)))%nat) eqn:G; [|exists 0; split; [reflexivity|lia]].
    apply andb_prop in G as (G1 & G2). apply Nat.ltb_lt in G1, G2. eexists. split; [reflexivity|]. rewrite Forall_forall in F. apply F. apply nth_In. destruct (q <? _); lia. }
  destruct S as (s & E & S0). unfold composition_sample_hns. fold q. rewrite E. destruct (s =? 0); [eauto|]. destruct (Z.leb_spec (Z.of_nat (length (t_times (k_track k)))) s); [eauto|].
  replace s with (Z.of_nat (Z.to_nat s)) by lia. rewrite composition_at by lia. eauto.
Qed.
Lemma move_stream_some : forall comp dec k, k_places k = [] \/ ((exists rs, timed rs k) /\ Forall (fun x => 0 <= snd x) (t_order (k_track k))) -> exists c, move_stream comp dec k = Some c.
Proof.
  intros comp dec k [E|((rs & T) & F)]; unfold move_stream; [rewrite E; eauto|]. destruct (k_places k) as [|p l]; [eauto|]. remember (p :: l) as pl.
  assert (DS : exists s, decoding_sample_hns (k_ts k) (k_track k) dec = Some s).
  { pose proof (timed_facts rs k T) as (_ & _ & _ & _ & _ & _ & SR). destruct (SR _ (of_hns_range (k_ts k) dec)) as (s & E & _). exists s. exact E. }
  destruct DS as (s & DS). destruct (csh_total rs k (u64 (comp - k_offset k)) T F) as (s' & E). cbv zeta. rewrite DS, E. destruct (t_keys (k_track k)), (k_ltc k), (k_offset k <? comp); eexists; reflexivity.
Qed.
Lemma all_some_ok : forall {A} (l : list (option A)), Forall (fun o => exists x, o = Some x) l -> exists r, all_some l = Some r /\ length r = length l /\ forall i x, nth_error l i = Some (Some x) -> nth_error r i = Some x.
Proof.
  induction l as [|o l IH]; intros F; [exists []; split; [reflexivity|]; split; [reflexivity|]; intros [|i] x H; discriminate|].
  inversion F as [|? ? (x & ->) F']. subst. destruct (IH F') as (r & E & L & N). exists (x :: r). cbn [all_some]. rewrite E. split; [reflexivity|]. split; [cbn; lia|]. intros [|i] y H; [cbn in *; congruence|]. apply N. exact H.
Qed.
Lemma samples_length : forall k, length (samples_of k) = length (k_places k).
Proof. intros k. unfold samples_of. rewrite map_length, combine_length, seq_length. lia. Qed.
Lemma samples_nth : forall k i, nth_error (samples_of k) i = option_map (sample_at k i) (nth_error (k_places k) i).
Proof.
  intros k i. unfold samples_of. assert (G : forall l a i, nth_error (map (fun ip => sample_at k (fst ip) (snd ip)) (combine (seq a (length l)) l)) i = option_map (sample_at k (a + i)) (nth_error l i)).
  { induction l as [|p l IH]; intros a [|j]; cbn [length seq combine map nth_error option_map fst snd]; auto; [rewrite Nat.add_0_r; reflexivity|]. rewrite IH. replace (S a + j)%nat with (a + S j)%nat by lia. reflexivity. }
  apply (G (k_places k) 0%nat i).
Qed.
Lemma samples_inside : forall ks e k, whole ks e -> In k ks -> Forall (inside e) (samples_of k).
Proof.
  intros ks e k (_ & W) I. specialize (W k I). apply Forall_forall. intros x J. apply In_nth_error in J as (i & J). rewrite samples_nth in J. destruct (nth_error (k_places k) i) as [p|] eqn:P; [|discriminate]. injection J as <-.
  rewrite Forall_forall in W. exact (W p (nth_error_In _ _ P)).
Qed.
Lemma sub_sum : forall l, (list_sum (map (fun st => length (rest st)) l) <= list_sum (map (fun st => length (st_samples st)) l))%nat.
Proof. induction l as [|st l IH]; [reflexivity|]. cbn [map]. unfold list_sum in *. cbn [fold_right]. unfold rest at 1. rewrite skipn_length. lia. Qed.
Lemma move_reader : forall ks e time id k s d c, sound ks -> whole ks e -> nth_error ks id = Some k -> target k time = Some s -> decoding_time (k_track k) s = Some d -> composition_time (k_track k) s = Some c ->
  exists r cur, move ks e time id = Some r /\ readable r /\ (remaining r <= total ks)%nat /\ nth_error (r_streams r) id = Some (mkStream (samples_of k) cur)
  /\ move_stream (u64 (to_hns (k_ts k) c + k_offset k)) (to_hns (k_ts k) d) k = Some cur.
Proof.
  intros ks e time id k s d c SO WH K T Hd Hc. unfold move. rewrite K, T, Hd, Hc. set (f := move_stream (u64 (to_hns (k_ts k) c + k_offset k)) (to_hns (k_ts k) d)).
  destruct (all_some_ok (map f ks)) as (pos & E & L & N).
  { apply Forall_map, Forall_forall. intros k' I. apply move_stream_some. apply SO. exact I. }
  rewrite E. rewrite map_length in L. destruct (move_stream_some (u64 (to_hns (k_ts k) c + k_offset k)) (to_hns (k_ts k) d) k (SO k (nth_error_In _ _ K))) as (cur & M).
  eexists _, cur. split; [reflexivity|]. fold f in M. split; [|split; [|split]].
  - split; [apply WH|]. cbn [r_streams r_mdat_end]. intros st I. apply in_map_iff in I as ((k', p) & <- & I). apply in_combine_l in I. unfold rest. cbn [st_samples st_cur fst snd].
    pose proof (samples_inside ks e k' WH I) as Q. rewrite <- (firstn_skipn p (samples_of k')) in Q. apply Forall_app in Q as (_ & Q). exact Q.
  - unfold remaining. etransitivity; [apply sub_sum|]. cbn [r_streams]. rewrite map_map. unfold total. clear - L. revert pos L. induction ks as [|k' ks IH]; intros [|p pos] L; cbn [length] in L; try lia; [reflexivity|].
    cbn [combine map]. unfold list_sum in *. cbn [fold_right fst snd st_samples]. rewrite samples_length. apply Nat.add_le_mono_l. apply IH. lia.
  - cbn [r_streams]. rewrite nth_error_map. assert (P : nth_error pos id = Some cur) by (apply N; rewrite nth_error_map, K; cbn; rewrite M; reflexivity).
    assert (Q : forall (a : list trk) (b : list nat) i x y, nth_error a i = Some x -> nth_error b i = Some y -> nth_error (combine a b) i = Some (x, y)).
    { induction a as [|x0 a IH]; intros [|y0 b] [|i] x y H1 H2; cbn in *; try discriminate; [congruence|]. apply IH; assumption. }
    rewrite (Q _ _ _ _ _ K P). reflexivity.
  - exact M.
Qed.
(** ** Times in units of 100 ns *)
Lemma hns_mono : forall ts a b, 0 < ts -> 0 <= a <= b -> 10000000 * b < 2 ^ 64 -> to_hns ts a <= to_hns ts b.
Proof. intros ts a b H1 H2 H3. unfold to_hns. rewrite !u64_id by lia. apply Z.div_le_mono; lia. Qed.
Lemma hns_strict : forall ts a b, 0 < ts <= 10000000 -> 0 <= a < b -> 10000000 * b < 2 ^ 64 -> to_hns ts a < to_hns ts b.
Proof.
  intros ts a b H1 H2 H3. unfold to_hns. rewrite !u64_id by lia.
  assert (10000000 * a / ts + 1 <= 10000000 * b / ts); [|lia]. rewrite <- Z.div_add by lia. apply Z.div_le_mono; lia.
Qed.
Lemma hns_pos : forall ts a, 0 < ts -> 0 <= to_hns ts a. Proof. intros. unfold to_hns. apply Z.div_pos; [|lia]. unfold u64. apply Z.mod_pos_bound. lia. Qed.
Lemma hns_before : forall ts a time, 0 < ts -> 0 <= a -> 10000000 * a < 2 ^ 64 -> 0 <= time -> a < of_hns ts time -> to_hns ts a < time.
Proof.
  intros ts a time H1 H2 H3 H4 H5. unfold to_hns. rewrite u64_id by lia. apply Z.div_lt_upper_bound; [lia|]. unfold of_hns in H5.
  assert (M : u64 (time * ts) <= time * ts) by (unfold u64; apply Z.mod_le; nia). assert (10000000 * (a + 1) <= u64 (time * ts)); [|lia].
  assert (Q : 10000000 * (u64 (time * ts) / 10000000) <= u64 (time * ts)) by (apply Z.mul_div_le; lia). lia.
Qed.
Lemma back_le : forall ts d, 0 < ts <= 10000000 -> 0 <= d -> 10000000 * d < 2 ^ 64 -> of_hns ts (to_hns ts d) <= d.
Proof. intros ts d H1 H2 H3. rewrite there_and_back by lia. destruct (_ =? 0); lia. Qed.
Lemma comp_sample : forall rs k i x, timed rs k -> nth_error (samples_of k) i = Some x -> (i < length (k_places k))%nat /\ s_comp x = to_hns (k_ts k) (u64 (C k i)) /\ s_dec x = to_hns (k_ts k) (D k i).
Proof.
  intros rs k i x T H. pose proof (timed_facts rs k T) as (LT & _). rewrite samples_nth in H. destruct (nth_error (k_places k) i) as [p|] eqn:P; [|discriminate]. injection H as <-.
  assert (I : (i < length (k_places k))%nat) by (apply nth_error_Some; congruence). split; [exact I|]. unfold sample_at. cbn [s_comp s_dec]. rewrite composition_at, decoding_at by lia. split; reflexivity.
Qed.
Lemma sorted_nth : forall (f : sample -> Z) l, (forall i j x y, (i < j)%nat -> nth_error l i = Some x -> nth_error l j = Some y -> f x <= f y) -> StronglySorted (fun a b => f a <= f b) l.
Proof.
  induction l as [|x l IH]; intros H; constructor.
  - apply IH. intros i j a b L A B. apply (H (S i) (S j)); auto. lia.
  - apply Forall_forall. intros y I. apply In_nth_error in I as (j & J). apply (H 0%nat (S j)); auto. lia.
Qed.
Lemma firstn_nth_in : forall {A} (l : list A) n x, In x (firstn n l) -> exists i, (i < n)%nat /\ nth_error l i = Some x.
Proof. induction l as [|y l IH]; intros [|n] x H; cbn in H; try destruct H as [<-|H]; try easy; [exists 0%nat; split; [lia|reflexivity]|]. destruct (IH n x H) as (i & I1 & I2). exists (S i). split; [lia|exact I2]. Qed.
(** the times of a steady track never go back *)
Notation comp_small := offsets_ok.
Lemma C_small : forall rs k i, timed rs k -> comp_small k -> (i < length (k_places k))%nat -> 0 <= C k i /\ 10000000 * C k i < 2 ^ 64 /\ u64 (C k i) = C k i /\ D k i <= C k i.
Proof.
  intros rs k i T F I. pose proof (timed_small rs k i T I) as (A & B). assert (O : 0 <= nth i (t_offsets (k_track k)) 0 < 2 ^ 32).
  { destruct (nth_in_or_default i (t_offsets (k_track k)) 0) as [Q| ->]; [|lia]. unfold offsets_ok in F. rewrite Forall_forall in F. exact (F _ Q). }
  unfold C. split; [lia|]. split; [lia|]. split; [apply u64_id; lia|lia].
Qed.
Lemma C_steady : forall rs k i j, timed rs k -> steady k -> comp_small k -> (i < j)%nat -> (j < length (k_places k))%nat -> C k i < C k j.
Proof.
  intros rs k i j T (_ & _ & [(H1 & H2)|(H1 & H2 & H3)]) F IJ J; pose proof (timed_facts rs k T) as (LT & _ & _ & DI & _).
  - unfold C. rewrite H2. replace (nth i [] 0) with 0 by (destruct i; reflexivity). replace (nth j [] 0) with 0 by (destruct j; reflexivity). specialize (DI i j IJ J). lia.
  - induction j as [|j IH]; [lia|]. destruct (H3 j ltac:(lia)) as (c & A1 & _ & A3). rewrite composition_at in A1 by lia. injection A1 as <-.
    replace (Z.of_nat j + 1) with (Z.of_nat (S j)) in A3 by lia. rewrite composition_at in A3 by lia. specialize (A3 _ eq_refl).
    destruct (C_small rs k j T F ltac:(lia)) as (_ & _ & E1 & _). destruct (C_small rs k (S j) T F ltac:(lia)) as (_ & _ & E2 & _). rewrite E1, E2 in A3.
    destruct (Nat.eq_dec i j) as [->|NE]; [exact A3|]. specialize (IH ltac:(lia) ltac:(lia)). lia.
Qed.
Lemma sorted_steady : forall rs k, timed rs k -> steady k -> comp_small k -> StronglySorted (fun a b => s_comp a + k_offset k <= s_comp b + k_offset k) (samples_of k).
Proof.
  intros rs k T S F. apply (sorted_nth (fun x => s_comp x + k_offset k)). intros i j x y IJ X Y. destruct (comp_sample rs k i x T X) as (I & E1 & _). destruct (comp_sample rs k j y T Y) as (J & E2 & _).
  pose proof (C_steady rs k i j T S F IJ J). destruct (C_small rs k i T F I) as (P1 & P2 & P3 & _). destruct (C_small rs k j T F J) as (P4 & P5 & P6 & _).
  destruct T as (_ & _ & _ & _ & _ & _ & TS & _). rewrite E1, E2, P3, P6. pose proof (hns_mono (k_ts k) (C k i) (C k j) ltac:(lia) ltac:(lia) ltac:(lia)). lia.
Qed.
Lemma comp_bound : forall rs k x, timed rs k -> comp_small k -> In x (samples_of k) -> 0 <= s_comp x + k_offset k < 2 ^ 64.
Proof.
  intros rs k x T F I. apply In_nth_error in I as (i & X). destruct (comp_sample rs k i x T X) as (I & E1 & _). destruct (C_small rs k i T F I) as (P1 & P2 & P3 & _). pose proof (timed_small rs k i T I) as (B1 & B2).
  destruct T as (_ & _ & _ & _ & _ & _ & TS & _ & OB). rewrite E1, P3. pose proof (hns_pos (k_ts k) (C k i) ltac:(lia)) as Hp. unfold to_hns in *. rewrite u64_id in * by lia.
  assert (Q : 10000000 * C k i / k_ts k <= 10000000 * C k i) by (apply Z.div_le_upper_bound; nia). unfold C in Q |- *.
  assert (O : 0 <= nth i (t_offsets (k_track k)) 0 < 2 ^ 32).
  { destruct (nth_in_or_default i (t_offsets (k_track k)) 0) as [R| ->]; [|lia]. unfold offsets_ok in F. rewrite Forall_forall in F. exact (F _ R). }
  unfold C in *. lia.
Qed.
Lemma in_rest : forall st x, In x (rest st) -> In x (st_samples st).
Proof. intros st x H. unfold rest in H. rewrite <- (firstn_skipn (st_cur st) (st_samples st)). apply in_or_app. right. exact H. Qed.
(** ** An audio piece *)
Lemma audio_piece : forall ks e id k rs start end_ base n, sound ks -> whole ks e -> nth_error ks id = Some k -> timed rs k -> steady k -> comp_small k -> 0 <= start -> (total ks < n)%nat ->
  exists b, add_frames n ks e id start end_ base = Some (filter (fun x => (start <=? presented k x) && (presented k x <? end_)) (samples_of k), b).
Proof.
  intros ks e id k rs start end_ base n SO WH K T St F S0 Hn. pose proof (timed_facts rs k T) as (LT & LP & D0 & DI & DZ & ZP & SR). pose proof (finds_ok rs k T St) as FI.
  assert (TS : 0 < k_ts k <= 10000000 /\ 0 <= k_offset k < 2 ^ 62) by (destruct T as (_ & _ & _ & _ & _ & _ & ? & _ & ?); auto).
  assert (TG : exists s, target k start = Some (Z.of_nat s) /\ (s < length (k_places k))%nat /\ forall i, (i < s)%nat -> k_offset k <= start /\ to_hns (k_ts k) (C k i) + k_offset k < start).
  { unfold target, iframe_number. pose proof St as (K1 & K2 & _). rewrite K1.
    assert (CS : exists s, composition_sample (k_track k) (of_hns (k_ts k) start) = Some s).
    { unfold composition_sample. destruct (t_has_ctts (k_track k)); [destruct (_ && _); eauto|]. destruct (SR _ (of_hns_range (k_ts k) start)) as (s & E & _). eauto. }
    destruct CS as (s0 & ->). destruct (FI (u64 (start - k_offset k))) as (s & E & L & B). rewrite E. destruct (Z.ltb_spec start (k_offset k)).
    - exists 0%nat. split; [reflexivity|]. split; [exact LP|]. intros; lia.
    - exists s. split; [reflexivity|]. split; [exact L|]. intros i Hi. split; [lia|]. specialize (B i Hi). destruct (C_small rs k i T F ltac:(lia)) as (P1 & P2 & P3 & _). rewrite P3 in B.
      assert (U : 0 <= u64 (start - k_offset k)) by (unfold u64; apply Z.mod_pos_bound; lia). apply hns_before in B; [|lia|lia|lia|lia]. assert (u64 (start - k_offset k) <= start - k_offset k) by (unfold u64; apply Z.mod_le; lia). lia. }
  destruct TG as (s & TG & SL & SB). destruct (C_small rs k s T F SL) as (P1 & P2 & P3 & _).
  destruct (move_reader ks e start id k _ (D k s) (u64 (C k s)) SO WH K TG) as (r & cur & M & R & RM & NS & MS); [apply decoding_at; lia|apply composition_at; lia|].
  unfold add_frames. rewrite K, M. rewrite (frames_eq n r id (k_offset k) start end_ (mkStream (samples_of k) cur) R ltac:(lia) NS).
  2: { apply Forall_forall. intros x I. apply in_rest in I. apply (comp_bound rs k x T F I). }
  unfold rest. cbn [st_samples st_cur]. eexists. f_equal. f_equal. apply (cut_from (fun x => s_comp x + k_offset k)); [apply (sorted_steady rs k T St F)|].
  apply Forall_forall. intros x I. apply firstn_nth_in in I as (i & I1 & I2). destruct (comp_sample rs k i x T I2) as (IL & E & _). destruct (C_small rs k i T F IL) as (Q1 & Q2 & Q3 & _). rewrite E, Q3.
  assert (CUR : (cur <= s)%nat).
  { unfold move_stream in MS. pose proof St as (K1 & K2 & _). rewrite K1, K2 in MS. destruct (k_places k) as [|p pl] eqn:PL; [cbn in LP; lia|]. rewrite <- PL in *. rewrite P3 in MS.
    destruct (Z.ltb_spec (k_offset k) (u64 (to_hns (k_ts k) (C k s) + k_offset k))) as [LTo|]; [|injection MS as <-; lia].
    destruct (FI (u64 (u64 (to_hns (k_ts k) (C k s) + k_offset k) - k_offset k))) as (c & Ec & Lc & Bc). rewrite Ec in MS. cbn [option_map] in MS. injection MS as <-.
    assert (SX : exists x, nth_error (samples_of k) s = Some x) by (destruct (nth_error (samples_of k) s) eqn:W; eauto; apply nth_error_None in W; rewrite samples_length in W; lia).
    destruct SX as (xs & SX). pose proof (comp_bound rs k xs T F (nth_error_In _ _ SX)) as CB. destruct (comp_sample rs k s xs T SX) as (_ & Es & _). rewrite Es, P3 in CB.
    rewrite (u64_id (to_hns (k_ts k) (C k s) + k_offset k)) in Bc by lia. replace (to_hns (k_ts k) (C k s) + k_offset k - k_offset k) with (to_hns (k_ts k) (C k s)) in Bc by lia.
    pose proof (hns_pos (k_ts k) (C k s) ltac:(lia)). rewrite u64_id in Bc by lia.
    destruct (Nat.le_gt_cases c s) as [|G]; [lia|]. specialize (Bc s G). pose proof (back_le (k_ts k) (C k s) ltac:(lia) ltac:(lia) ltac:(lia)). lia. }
  apply SB. lia.
Qed.
(** all the pieces *)
Lemma filter_split : forall (f : sample -> Z) a b c l, StronglySorted (fun x y => f x <= f y) l -> a <= b <= c ->
  filter (fun x => (a <=? f x) && (f x <? b)) l ++ filter (fun x => (b <=? f x) && (f x <? c)) l = filter (fun x => (a <=? f x) && (f x <? c)) l.
Proof.
  induction l as [|x l IH]; intros Ss H; [reflexivity|]. inversion Ss as [|? ? S1 S2]. subst. specialize (IH S1 H). cbn [filter].
  destruct (Z.ltb_spec (f x) b).
  - destruct (Z.leb_spec b (f x)); [lia|]. destruct (Z.ltb_spec (f x) c); [|lia]. rewrite andb_false_l, !andb_true_r. destruct (a <=? f x); cbn [app]; rewrite IH; reflexivity.
  - assert (N : filter (fun y => (a <=? f y) && (f y <? b)) l = []).
    { apply filter_none. apply Forall_forall. intros y I. rewrite Forall_forall in S2. specialize (S2 y I). cbv beta in S2. destruct (Z.ltb_spec (f y) b); [lia|apply andb_false_r]. }
    rewrite N in IH. rewrite andb_false_r, N. cbn [app] in *. destruct (Z.leb_spec b (f x)); [|lia]. destruct (Z.leb_spec a (f x)); [|lia]. rewrite !andb_true_l. rewrite IH. reflexivity.
Qed.
Lemma audio_pieces : forall ks e id k rs base n, sound ks -> whole ks e -> nth_error ks id = Some k -> timed rs k -> steady k -> offsets_ok k -> (total ks < n)%nat ->
  forall cuts a, 0 <= a -> StronglySorted Z.le (a :: cuts) -> exists ls, Forall2 (fun s l => exists b, add_frames n ks e id (fst s) (snd s) base = Some (l, b)) (spans (a :: cuts)) ls
    /\ concat ls = filter (fun x => (a <=? presented k x) && (presented k x <? last cuts a)) (samples_of k).
Proof.
  intros ks e id k rs base n SO WH K T St F Hn. induction cuts as [|b cuts IH]; intros a A0 Ss.
  - exists []. split; [constructor|]. cbn [concat last]. symmetry. apply filter_none. apply Forall_forall. intros x _. destruct (Z.leb_spec a (presented k x)), (Z.ltb_spec (presented k x) a); try reflexivity. lia.
  - inversion Ss as [|? ? S1 S2]. subst. inversion S2 as [|? ? AB S2']. subst. destruct (IH b ltac:(lia) S1) as (ls & P1 & P2).
    destruct (audio_piece ks e id k rs a b base n SO WH K T St F A0 Hn) as (b0 & E). eexists (_ :: ls). split.
    + change (spans (a :: b :: cuts)) with ((a, b) :: spans (b :: cuts)). constructor; [|exact P1]. exists b0. exact E.
    + cbn [concat]. rewrite P2. assert (LL : b <= last cuts b). { destruct cuts as [|c cuts]; [cbn; lia|]. inversion S1 as [|? ? _ Q]. subst. rewrite Forall_forall in Q. apply Q. destruct (exists_last (l := c :: cuts)) as (q & z & W); [discriminate|]. rewrite W, last_last. apply in_or_app. right. left. reflexivity. }
      replace (last (b :: cuts) a) with (last cuts b) by (destruct cuts as [|c cuts]; [reflexivity|]; cbn [last]; clear; revert c; induction cuts as [|d cuts IH]; intros c; [reflexivity|]; apply IH).
      apply (filter_split (presented k)); [exact (sorted_steady rs k T St F)|lia].
Qed.
(** ** A video piece *)
Lemma keyed_search : forall flags k s, keyed flags k -> (Z.of_nat (length (k_places k)) < 2 ^ 31) -> exists m f lim, t_keys (k_track k) = Some m /\ iframe_at m s = Some (Z.of_nat f, lim) /\ (f < length (k_places k))%nat /\ nth f flags false = true
  /\ (forall j, (j < length (k_places k))%nat -> nth j flags false = true -> Z.of_nat j <= s -> (j <= f)%nat) /\ (Z.of_nat f <= s \/ forall j, (j < length (k_places k))%nat -> nth j flags false = true -> (f <= j)%nat).
Proof.
  intros flags k s (L & m & M1 & M2) B. pose proof (iframes_sorted flags 0) as Ss. assert (Fb : Forall (fun k => 0 <= k < 2 ^ 32 - 1) (iframes 0 flags)) by (apply Forall_forall; intros q Hk; apply iframes_spec in Hk; lia).
  assert (Lb : forall l a, (length (iframes a l) <= length l)%nat). { clear. induction l as [|b l IH]; intros a; [cbn; lia|]. cbn [iframes]. rewrite app_length. cbn [length]. specialize (IH (a + 1)). destruct b; cbn [length]; lia. }
  specialize (Lb flags 0). assert (IN : forall j, In j (iframes 0 flags) <-> exists i, j = Z.of_nat i /\ (i < length (k_places k))%nat /\ nth i flags false = true).
  { intros j. rewrite iframes_spec. rewrite Z.sub_0_r. split; [intros (H1 & H2); exists (Z.to_nat j); split; [lia|]; split; [lia|exact H2]|intros (i & -> & H1 & H2); rewrite Nat2Z.id; split; [lia|exact H2]]. }
  destruct (iframes 0 flags) as [|k0 kr] eqn:Ei; [discriminate M2|]. rewrite parse_stss_spec in M2 by (auto; cbn [length] in Lb; lia). injection M2 as <-.
  destruct (Z.le_gt_cases k0 s) as [G|G].
  - destruct (iframe_before k0 kr s Ss G) as (q & lim & E & A1 & A2 & A3). apply IN in A1 as (f & -> & F1 & F2). exists (keytab k0 kr), f, lim. split; [exact M1|]. split; [exact E|]. split; [exact F1|]. split; [exact F2|]. split; [|left; exact A2].
    intros j J1 J2 J3. specialize (A3 (Z.of_nat j) ltac:(apply IN; eauto) J3). lia.
  - destruct (iframe_at_spec k0 kr s Ss) as (i & Hi & E & A & Bq).
    assert (i = 0%nat) as ->. { destruct A as [->|A]; [reflexivity|]. destruct i as [|i]; [reflexivity|]. pose proof (zlt_nth (k0 :: kr) 0 (S i) Ss ltac:(cbn [length]; lia)) as Q. cbn [nth] in Q, A. lia. }
    cbn [nth] in E. assert (I0 : In k0 (k0 :: kr)) by (left; reflexivity). apply IN in I0 as (f & -> & F1 & F2). eexists _, f, _. split; [exact M1|]. split; [exact E|]. split; [exact F1|]. split; [exact F2|].
    assert (MIN : forall j, (j < length (k_places k))%nat -> nth j flags false = true -> (f <= j)%nat).
    { intros j J1 J2. assert (J : In (Z.of_nat j) (Z.of_nat f :: kr)) by (apply IN; eauto). destruct J as [J|J]; [lia|]. inversion Ss as [|? ? _ Q]. subst. rewrite Forall_forall in Q. specialize (Q _ J). lia. }
    split; [|right; exact MIN]. intros j J1 J2 J3. specialize (MIN j J1 J2). lia.
Qed.
Lemma timed_count : forall rs k, timed rs k -> Z.of_nat (length (k_places k)) < 2 ^ 31.
Proof. intros rs k (_ & _ & _ & B & _ & L & _). lia. Qed.
(** where the seek leads: to the last key frame decoded by then, or one sample before it *)
Lemma video_pos : forall ks e id k rs flags start, sound ks -> whole ks e -> nth_error ks id = Some k -> timed rs k -> keyed flags k -> 0 <= start ->
  exists r cur f, move ks e start id = Some r /\ readable r /\ (remaining r <= total ks)%nat /\ nth_error (r_streams r) id = Some (mkStream (samples_of k) cur)
  /\ (f <= S cur)%nat /\ (cur <= f)%nat /\ (f < length (k_places k))%nat /\ nth f flags false = true
  /\ (forall j, (j < length (k_places k))%nat -> nth j flags false = true -> D k j <= of_hns (k_ts k) start -> (j <= f)%nat)
  /\ (D k f <= of_hns (k_ts k) start \/ forall j, (j < length (k_places k))%nat -> nth j flags false = true -> (f <= j)%nat).
Proof.
  intros ks e id k rs flags start SO WH K T KY S0. pose proof (timed_facts rs k T) as (LT & LP & D0 & DI & DZ & ZP & SR). pose proof (timed_count rs k T) as CT.
  destruct (SR _ (of_hns_range (k_ts k) start)) as (s & E & S1 & S2 & S3). destruct (keyed_search flags k s KY CT) as (m & f & lim & M1 & M2 & F1 & F2 & F3 & F4).
  assert (TG : target k start = Some (Z.of_nat f)) by (unfold target, iframe_number; rewrite M1, E, M2; reflexivity).
  destruct (move_reader ks e start id k _ (D k f) (u64 (C k f)) SO WH K TG) as (r & cur & M & R & RM & NS & MS); [apply decoding_at; lia|apply composition_at; lia|].
  exists r, cur, f. do 4 (split; [assumption|]).
  assert (TS : 0 < k_ts k <= 10000000) by (destruct T as (_ & _ & _ & _ & _ & _ & ? & _ & ?); auto). pose proof (timed_small rs k f T F1) as (B1 & B2).
  assert (CU : (f <= S cur)%nat /\ (cur <= f)%nat).
  { unfold move_stream in MS. rewrite M1 in MS. destruct (k_places k) as [|p pl] eqn:PL; [cbn in LP; lia|]. rewrite <- PL in *. unfold decoding_sample_hns in MS.
    destruct (SR _ (of_hns_range (k_ts k) (to_hns (k_ts k) (D k f)))) as (c & Ec & C1 & C2 & C3). rewrite Ec in MS. cbn [option_map] in MS. injection MS as <-.
    assert (Q : D k f - 1 <= of_hns (k_ts k) (to_hns (k_ts k) (D k f)) <= D k f) by (rewrite there_and_back by lia; destruct (_ =? 0); lia). specialize (DZ f F1). specialize (C2 ltac:(lia)).
    assert (c <= Z.of_nat f). { destruct (Z.le_gt_cases c (Z.of_nat f)) as [|G]; [assumption|]. pose proof (proj2 (C3 (S f) ltac:(lia)) ltac:(lia)). pose proof (DI f (S f) ltac:(lia) ltac:(lia)). lia. }
    assert (Z.of_nat f - 1 <= c). { destruct f as [|f]; [lia|]. replace (Z.of_nat (S f) - 1) with (Z.of_nat f) by lia. apply (C3 f ltac:(lia)). pose proof (DI f (S f) ltac:(lia) ltac:(lia)). lia. }
    lia. }
  split; [apply CU|]. split; [apply CU|]. split; [exact F1|]. split; [exact F2|]. split.
  - intros j J1 J2 J3. apply F3; auto. apply S3; auto.
  - destruct F4 as [F4|F4]; [left; apply S3; auto|right; exact F4].
Qed.
Lemma dec_after : forall rs k j x start, timed rs k -> nth_error (samples_of k) j = Some x -> 0 <= start -> start < s_dec x -> ~ D k j <= of_hns (k_ts k) start.
Proof.
  intros rs k j x start T X S0 H G. destruct (comp_sample rs k j x T X) as (J & _ & E). pose proof (timed_small rs k j T J) as (B1 & B2). assert (TS : 0 < k_ts k <= 10000000) by (destruct T as (_ & _ & _ & _ & _ & _ & ? & _ & ?); auto).
  rewrite E in H. unfold to_hns in H. rewrite u64_id in H by lia. assert (10000000 * D k j / k_ts k <= start); [|lia]. apply Z.div_le_upper_bound; [lia|]. unfold of_hns in G.
  assert (M : u64 (start * k_ts k) <= start * k_ts k) by (unfold u64; apply Z.mod_le; nia). assert (Q : 10000000 * (u64 (start * k_ts k) / 10000000) <= u64 (start * k_ts k)) by (apply Z.mul_div_le; lia). lia.
Qed.
Lemma dec_before : forall rs k j x start, timed rs k -> nth_error (samples_of k) j = Some x -> k_ts k * start < 2 ^ 64 -> 0 <= start -> s_dec x < start -> D k j <= of_hns (k_ts k) start.
Proof.
  intros rs k j x start T X SB S0 H. destruct (comp_sample rs k j x T X) as (J & _ & E). pose proof (timed_small rs k j T J) as (B1 & B2). assert (TS : 0 < k_ts k <= 10000000) by (destruct T as (_ & _ & _ & _ & _ & _ & ? & _ & ?); auto).
  rewrite E in H. unfold to_hns in H. rewrite u64_id in H by lia. unfold of_hns. rewrite u64_id by nia. apply Z.div_le_lower_bound; [lia|].
  pose proof (Z.mul_succ_div_gt (10000000 * D k j) (k_ts k) ltac:(lia)). nia.
Qed.
Lemma video_cur : forall rs k flags start K f, timed rs k -> 0 <= start -> (K < length (k_places k))%nat -> nth K flags false = true ->
  (forall j x, (K < j)%nat -> nth j flags false = true -> nth_error (samples_of k) j = Some x -> start < s_dec x) -> (f < length (k_places k))%nat -> nth f flags false = true ->
  (D k f <= of_hns (k_ts k) start \/ forall j, (j < length (k_places k))%nat -> nth j flags false = true -> (f <= j)%nat) -> (f <= K)%nat.
Proof.
  intros rs k flags start K f T S0 H1 H2 H3 F1 F2 [G|G]; [|apply G; auto]. destruct (Nat.le_gt_cases f K) as [|L]; [assumption|]. exfalso.
  destruct (nth_error (samples_of k) f) as [x|] eqn:X; [|apply nth_error_None in X; rewrite samples_length in X; lia]. exact (dec_after rs k f x start T X S0 (H3 f x L F2 X) G).
Qed.
Lemma nth_firstn_skipn : forall {A} (l : list A) a m x, In x (firstn m (skipn a l)) -> exists i, (a <= i < a + m)%nat /\ nth_error l i = Some x.
Proof. intros A l a m x H. apply firstn_nth_in in H as (i & I1 & I2). exists (a + i)%nat. split; [lia|]. rewrite <- I2. clear. revert l. induction a as [|a IH]; intros l; [reflexivity|]. destruct l; [cbn; destruct i; reflexivity|]. apply IH. Qed.
Lemma skipn_hd_nth : forall {A} (l : list A) b x r, skipn b l = x :: r -> nth_error l b = Some x.
Proof. intros A l. induction l as [|y l IH]; intros [|b] x r H; cbn in *; try discriminate; [congruence|]. eapply IH; eauto. Qed.
Lemma video_piece : forall ks e id k rs flags start end_ base n K K', sound ks -> whole ks e -> nth_error ks id = Some k -> timed rs k -> keyed flags k -> offsets_ok k -> (total ks < n)%nat ->
  (K < K' <= length (k_places k))%nat -> nth K flags false = true -> 0 <= start <= end_ ->
  (forall j x, (K < j)%nat -> nth j flags false = true -> nth_error (samples_of k) j = Some x -> start < s_dec x) ->
  (forall i x, nth_error (samples_of k) i = Some x -> ((i < K)%nat -> presented k x < start) /\ ((K <= i < K')%nat -> start <= presented k x < end_) /\ (i = K' -> end_ <= presented k x)) ->
  exists b, add_frames n ks e id start end_ base = Some (firstn (K' - K) (skipn K (samples_of k)), b).
Proof.
  intros ks e id k rs flags start end_ base n K K' SO WH NK T KY F Hn HK FK SE LATE P. destruct (video_pos ks e id k rs flags start SO WH NK T KY ltac:(lia)) as (r & cur & f & M & R & RM & NS & CU1 & CU2 & F1 & F2 & F3 & F4).
  pose proof (video_cur rs k flags start K f T ltac:(lia) ltac:(lia) FK LATE F1 F2 F4) as FL.
  unfold add_frames. rewrite NK, M. rewrite (frames_eq n r id (k_offset k) start end_ (mkStream (samples_of k) cur) R ltac:(lia) NS).
  2: { apply Forall_forall. intros x I. apply in_rest in I. apply (comp_bound rs k x T F I). }
  unfold rest. cbn [st_samples st_cur]. eexists. f_equal. f_equal. apply (cut_slice (presented k)); [lia|rewrite samples_length; lia|lia| | |].
  - apply Forall_forall. intros x I. apply firstn_nth_in in I as (i & I1 & I2). apply (P i x I2). exact I1.
  - apply Forall_forall. intros x I. apply nth_firstn_skipn in I as (i & I1 & I2). apply (P i x I2). lia.
  - intros x q Q. apply skipn_hd_nth in Q. apply (P K' x Q). reflexivity.
Qed.
(** ** What is lost *)
Lemma dec_strict : forall rs k i j x y, timed rs k -> (i < j)%nat -> nth_error (samples_of k) i = Some x -> nth_error (samples_of k) j = Some y -> s_dec x < s_dec y.
Proof.
  intros rs k i j x y T IJ X Y. destruct (comp_sample rs k i x T X) as (I & _ & E1). destruct (comp_sample rs k j y T Y) as (J & _ & E2). pose proof (timed_facts rs k T) as (_ & _ & _ & DI & _).
  pose proof (timed_small rs k i T I). pose proof (timed_small rs k j T J). assert (TS : 0 < k_ts k <= 10000000) by (destruct T as (_ & _ & _ & _ & _ & _ & ? & _ & ?); auto). rewrite E1, E2. apply hns_strict; [lia| |lia]. specialize (DI i j IJ J). lia.
Qed.
Lemma while_in : forall (P : sample -> bool) l x, In x (while P l) -> exists i, nth_error l i = Some x /\ forall j y, (j <= i)%nat -> nth_error l j = Some y -> P y = true.
Proof.
  induction l as [|z l IH]; intros x H; [destruct H|]. cbn [while] in H. destruct (P z) eqn:Q; [|destruct H]. destruct H as [<-|H].
  - exists 0%nat. split; [reflexivity|]. intros [|j] y L Y; [cbn in Y; congruence|lia].
  - destruct (IH x H) as (i & I1 & I2). exists (S i). split; [exact I1|]. intros [|j] y L Y; [cbn in Y; congruence|]. apply (I2 j); [lia|exact Y].
Qed.
Lemma nth_skipn' : forall {A} (l : list A) a i, nth_error (skipn a l) i = nth_error l (a + i).
Proof. intros A l a i. revert l. induction a as [|a IH]; intros l; [reflexivity|]. destruct l; [cbn; destruct i; reflexivity|]. apply IH. Qed.
Lemma open_gop : forall ks e id k rs flags start end_ base n K i j x y, sound ks -> whole ks e -> nth_error ks id = Some k -> timed rs k -> keyed flags k -> offsets_ok k -> (total ks < n)%nat ->
  (K <= i)%nat -> (i < j)%nat -> nth K flags false = true -> 0 <= start ->
  (forall j x, (K < j)%nat -> nth j flags false = true -> nth_error (samples_of k) j = Some x -> start < s_dec x) ->
  nth_error (samples_of k) i = Some y -> nth_error (samples_of k) j = Some x -> end_ <= presented k y ->
  exists l b, add_frames n ks e id start end_ base = Some (l, b) /\ ~ In x l.
Proof.
  intros ks e id k rs flags start end_ base n K i j x y SO WH NK T KY F Hn Ki IJ FK S0 LATE Y X PY. assert (JL : (j < length (k_places k))%nat) by (rewrite <- samples_length; apply nth_error_Some; congruence).
  destruct (video_pos ks e id k rs flags start SO WH NK T KY S0) as (r & cur & f & M & R & RM & NS & CU1 & CU2 & F1 & F2 & F3 & F4).
  pose proof (video_cur rs k flags start K f T S0 ltac:(lia) FK LATE F1 F2 F4) as FL.
  unfold add_frames. rewrite NK, M. rewrite (frames_eq n r id (k_offset k) start end_ (mkStream (samples_of k) cur) R ltac:(lia) NS).
  2: { apply Forall_forall. intros z I. apply in_rest in I. apply (comp_bound rs k z T F I). }
  unfold rest. cbn [st_samples st_cur]. eexists _, _. split; [reflexivity|]. intros I. apply filter_In in I as (I & _). apply while_in in I as (p & P1 & P2). rewrite nth_skipn' in P1.
  destruct (Nat.le_gt_cases i (cur + p)) as [G|G].
  - specialize (P2 (i - cur)%nat y ltac:(lia)). rewrite nth_skipn' in P2. replace (cur + (i - cur))%nat with i in P2 by lia. specialize (P2 Y). cbv beta in P2. apply Z.ltb_lt in P2. unfold presented in PY. lia.
  - pose proof (dec_strict rs k (cur + p) j x x T ltac:(lia) P1 X). lia.
Qed.
Lemma before_start : forall ks e id k start end_ base n x rs l b, sound ks -> whole ks e -> nth_error ks id = Some k -> timed rs k -> offsets_ok k -> presented k x < start -> add_frames n ks e id start end_ base = Some (l, b) -> In x (samples_of k) -> ~ In x l.
Proof.
  intros ks e id k start end_ base n x rs l b SO WH NK T F P A X I. unfold add_frames in A. rewrite NK in A. destruct (move ks e start id) as [r|]; [|discriminate].
  pose proof (comp_bound rs k x T F X) as CB.
  assert (G : forall n r l, frames n r id (k_offset k) start end_ = Some l -> ~ In x l).
  { clear l A I. induction n0 as [|m IH]; intros r0 l H; [discriminate|]. rewrite frames_S in H. destruct (next r0) as [r1 [[[i y] [|]]|]]; try (injection H as <-; intros []).
    destruct (i =? id)%nat; [|exact (IH _ _ H)]. destruct (end_ <=? u64 (s_comp y + k_offset k)); [injection H as <-; intros []|].
    destruct (frames m r1 id (k_offset k) start end_) as [l1|] eqn:Q; [|discriminate]. injection H as <-. destruct (Z.ltb_spec (u64 (s_comp y + k_offset k)) start); [exact (IH _ _ Q)|].
    intros [<-|I]; [|exact (IH _ _ Q I)]. rewrite u64_id in H by lia. unfold presented in P. lia. }
  destruct (frames n r id (k_offset k) start end_) as [l1|] eqn:Q; [|discriminate]. injection A as <- <-. exact (G _ _ _ Q I).
Qed.
Lemma next_gop : forall ks e id k rs flags end_ base n K J x y, sound ks -> whole ks e -> nth_error ks id = Some k -> timed rs k -> keyed flags k -> offsets_ok k -> (total ks < n)%nat ->
  (S K < J)%nat -> nth J flags false = true -> nth_error (samples_of k) K = Some x -> nth_error (samples_of k) J = Some y -> k_ts k * presented k x < 2 ^ 64 -> s_dec y < presented k x ->
  exists l b, add_frames n ks e id (presented k x) end_ base = Some (l, b) /\ ~ In x l.
Proof.
  intros ks e id k rs flags end_ base n K J x y SO WH NK T KY F Hn KJ FJ X Y SB LT. assert (JL : (J < length (k_places k))%nat) by (rewrite <- samples_length; apply nth_error_Some; congruence).
  pose proof (comp_bound rs k x T F (nth_error_In _ _ X)) as CB. fold (presented k x) in CB.
  destruct (video_pos ks e id k rs flags (presented k x) SO WH NK T KY ltac:(lia)) as (r & cur & f & M & R & RM & NS & CU1 & CU2 & F1 & F2 & F3 & F4).
  specialize (F3 J JL FJ (dec_before rs k J y (presented k x) T Y SB ltac:(lia) LT)).
  unfold add_frames. rewrite NK, M. rewrite (frames_eq n r id (k_offset k) (presented k x) end_ (mkStream (samples_of k) cur) R ltac:(lia) NS).
  2: { apply Forall_forall. intros z I. apply in_rest in I. apply (comp_bound rs k z T F I). }
  unfold rest. cbn [st_samples st_cur]. eexists _, _. split; [reflexivity|]. intros I. apply filter_In in I as (I & _). apply while_in in I as (p & P1 & _). rewrite nth_skipn' in P1.
  pose proof (dec_strict rs k K (cur + p) x x T ltac:(lia) X P1). lia.
Qed.
(** ** Base time *)
Lemma base_fold : forall (g : sample -> Z) l b, b <> U64MAX -> fold_left (fun b x => if b =? U64MAX then g x else b) l b = b.
Proof. intros g. induction l as [|x l IH]; intros b N; [reflexivity|]. cbn [fold_left]. destruct (Z.eqb_spec b U64MAX); [congruence|]. apply IH. exact N. Qed.
Lemma base_first : forall k arg start x l, let t := if arg =? 2 ^ 64 - 1 then start else arg in 0 <= s_comp x - frame_dec k x <= t -> t < 2 ^ 64 - 1 -> base_time k arg start (x :: l) + (s_comp x - frame_dec k x) = t.
Proof.
  intros k arg start x l t H B. unfold base_time. set (g := fun x : sample => u64 ((if arg =? U64MAX then start else arg) - u64 (s_comp x - frame_dec k x))).
  change (fold_left (fun b x => if b =? U64MAX then g x else b) l (g x) + (s_comp x - frame_dec k x) = t).
  assert (G : g x = t - (s_comp x - frame_dec k x)). { unfold g. change (u64 (t - u64 (s_comp x - frame_dec k x)) = t - (s_comp x - frame_dec k x)). rewrite (u64_id (s_comp x - frame_dec k x)) by lia. apply u64_id. lia. }
  rewrite base_fold; [lia|]. unfold U64MAX. lia.
Qed.
Lemma frame_dec_at : forall k x, frame_dec k x = decoded_at k x. Proof. intros k x. unfold frame_dec, decoded_at. destruct (k_ctts_entries k =? 1); [reflexivity|]. rewrite Z.add_0_r. reflexivity. Qed.
Lemma piece_base : forall n ks e id k start end_ arg x l b, nth_error ks id = Some k -> add_frames n ks e id start end_ arg = Some (x :: l, b) ->
  let t := if arg =? 2 ^ 64 - 1 then start else arg in 0 <= s_comp x - decoded_at k x <= t -> t < 2 ^ 64 - 1 -> b + (s_comp x - decoded_at k x) = t.
Proof.
  intros n ks e id k start end_ arg x l b NK A. unfold add_frames in A. rewrite NK in A. destruct (move ks e start id); [|discriminate]. destruct (frames n r id (k_offset k) start end_); [|discriminate]. injection A as -> <-. rewrite <- frame_dec_at. apply base_first.
Qed.
