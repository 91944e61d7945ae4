From Coq Require Import Permutation Sorted ZifyNat.
From Verif Require Import Util RangeMap_model RangeMap_proofs SampleTab_model SampleTab_proofs TimeTab_model TimeTab_proofs TimeTab_proofs2 TimeTab_proofs3.
Local Open Scope Z_scope.
Lemma skipn_fullbox : forall t p, exists sz, fullbox t p = sz :: t :: 0 :: p. Proof. intros. eexists. reflexivity. Qed.
Lemma read_track_composition : forall ts h scale unscale b has off l, conversion ts h scale unscale -> h <= 2 ^ 64 -> (2 <= length l)%nat -> Z.of_nat (length l) < 2 ^ 31 ->
  paced ts h 0 (map snd l) -> Forall (fun s => fit ts h (fst s - snd s + off)) l -> has = true \/ off <> 0 ->
  exists times tb, parse_stts (skipn 2 (write_stts scale unscale b (map snd l))) = Some (times, tb, []) /\ length times = length l /\
  let comp i := fst (nth i times (0, 0)) + scale (fst (nth i l (0, 0)) - snd (nth i l (0, 0)) + off) in
  (forall i, (i < length l)%nat -> - (20000000 + ts) <= 10000000 * comp i - ts * (fst (nth i l (0, 0)) + off - snd (nth 0 l (0, 0))) <= 10000000 + ts + ts * Z.of_nat i)
  /\ ((forall i, (i < length l)%nat -> comp 0%nat <= comp i) -> exists t, read_track (write_stts scale unscale b (map snd l)) (write_ctts scale has off l) [] = Some t
        /\ t_times t = times /\ (forall i, (i < length l)%nat -> composition_time t (Z.of_nat i) = Some (comp i))
        /\ t_has_ctts t = true /\ Permutation (map (fun i => (comp i, Z.of_nat i)) (seq 0 (length l))) (t_order t) /\ StronglySorted leT (t_order t))
  /\ ((exists i, (i < length l)%nat /\ comp i < comp 0%nat) -> read_track (write_stts scale unscale b (map snd l)) (write_ctts scale has off l) [] = None).
Proof.
  intros ts h scale unscale b has off l C Hh L2 B F Fo H.
  destruct (read_decoding ts h scale unscale b (map snd l) C ltac:(rewrite map_length; exact L2) ltac:(rewrite map_length; exact B) F) as (times & tb & E1 & E2 & E3 & E4 & E5 & E6).
  destruct (decoding_accuracy ts h scale unscale b (map snd l) C ltac:(rewrite map_length; exact L2) ltac:(rewrite map_length; exact B) F) as (times' & tb' & A1 & A2 & A3 & A4 & A5).
  rewrite E1 in A1. injection A1 as <- <-. clear A2 A3 A4. rewrite map_length in *.
  exists times, tb. split; [exact E1|]. split; [exact E2|]. intros comp. pose proof C as (C0 & C1 & _).
  assert (Sn : forall i, nth i (map snd l) 0 = snd (nth i l (0, 0))) by (intros i; apply (map_nth snd l (0, 0))).
  assert (Fi : forall i, (i < length l)%nat -> fit ts h (fst (nth i l (0, 0)) - snd (nth i l (0, 0)) + off)) by (intros i Hi; rewrite Forall_forall in Fo; apply (Fo (nth i l (0, 0))); apply nth_In; exact Hi).
  assert (Tm : ctts_tame scale off l). { unfold ctts_tame. eapply Forall_impl; [|exact Fo]. intros s [Q1 Q2]. destruct (C1 _ Q1) as (R1 & R2). split; [lia|]. nia. }
  assert (Ft : Forall (fun d => 0 <= fst d < 2 ^ 63) times).
  { apply Forall_forall. intros d Hd. apply (In_nth _ _ (0, 0)) in Hd. destruct Hd as (i & Hi & <-). destruct (Nat.eq_dec i 0) as [->|Ni]; [rewrite E3; lia|]. rewrite E5 by lia.
    destruct l as [|[c0 d0] l]; [cbn in L2; lia|]. cbn [map snd nth skipn] in *. pose proof (near_next ts h scale unscale 0 0 d0 (map snd l) C (near_0 ts C0) F) as Q1. rewrite Z.sub_0_r, Z.add_0_l in *.
    pose proof (ticks_pos ts h scale unscale (map snd l) d0 (unscale (scale d0)) C Q1 (proj2 (proj2 F))) as P.
    pose proof (zsum_bound _ (Forall_firstn' _ i _ P)) as Q. rewrite firstn_length in Q. cbn [length] in *. nia. }
  assert (Nn : l <> []) by (intros ->; cbn in L2; lia).
  destruct (read_composition scale has off l times Nn B Tm H E2 Ft) as [R1 R2]. fold comp in R1, R2.
  assert (W : exists w ws, write_ctts scale has off l = w :: ws). { unfold write_ctts. replace (negb has && (off =? 0)) with false; [|destruct H as [->|H]; [reflexivity|]; rewrite (proj2 (Z.eqb_neq off 0) H), andb_false_r; reflexivity]. destruct (ctts_loop scale off 0 l 0 0) as [[[? ?] ?] ?]. unfold fullbox. eexists _, _. reflexivity. }
  destruct W as (w & ws & W).
  split; [|split].
  - intros i Hi. specialize (A5 i Hi). rewrite !Sn in A5. destruct (Fi i Hi) as [Q1 _]. destruct (C1 _ Q1) as (R3 & R4). unfold comp. lia.
  - intros Hc. destruct (R1 Hc) as (ord & G1 & G2 & G3). unfold read_track. rewrite E1. rewrite W in *. rewrite G1. eexists. split; [reflexivity|]. cbn [t_times t_has_ctts t_order]. split; [reflexivity|]. split; [|split; [reflexivity|split; [|exact G3]]].
    + intros i Hi. unfold composition_time, decoding_time. rewrite (proj2 (Z.ltb_ge (Z.of_nat i) 0)) by lia. rewrite Nat2Z.id. cbn [t_times t_offsets]. rewrite (nth_error_nth' times (0, 0)) by lia. cbn [option_map]. f_equal.
      assert (Eo : nth i (offsets scale off l) 0 = scale (fst (nth i l (0, 0)) - snd (nth i l (0, 0)) + off)). { unfold offsets. rewrite (nth_indep _ 0 ((fun s => scale (fst s - snd s + off)) (0, 0))) by (rewrite map_length; exact Hi). apply (map_nth (fun s => scale (fst s - snd s + off))). }
      rewrite Eo. fold (comp i). apply u64_id. unfold comp. rewrite Forall_forall in Ft. specialize (Ft (nth i times (0, 0)) ltac:(apply nth_In; lia)). unfold ctts_tame in Tm. rewrite Forall_forall in Tm. specialize (Tm (nth i l (0, 0)) ltac:(apply nth_In; lia)). lia.
    + assert (Em : map (fun i => (comp i, Z.of_nat i)) (seq 0 (length l)) = numbered 0 (offsets scale off l) times).
      { assert (Lo : length (offsets scale off l) = length times) by (unfold offsets; rewrite map_length; lia).
        apply (nth_ext _ _ (0, 0) (0, 0)); [rewrite map_length, seq_length, numbered_length by exact Lo; lia|]. intros i Hi. rewrite map_length, seq_length in Hi. rewrite numbered_nth by lia.
        rewrite (nth_indep _ (0, 0) ((fun i => (comp i, Z.of_nat i)) 0%nat)) by (rewrite map_length, seq_length; exact Hi). rewrite (map_nth (fun i => (comp i, Z.of_nat i)) (seq 0 (length l)) 0%nat i). rewrite seq_nth by exact Hi. cbn [Nat.add].
        unfold comp, offsets. f_equal. f_equal. rewrite (nth_indep _ 0 ((fun s => scale (fst s - snd s + off)) (0, 0))) by (rewrite map_length; exact Hi). symmetry. apply (map_nth (fun s => scale (fst s - snd s + off))). }
      rewrite Em. exact G2.
  - intros Hc. specialize (R2 Hc). unfold read_track. rewrite E1. rewrite W in *. rewrite R2. reflexivity.
Qed.
Lemma no_ctts : forall scale off l, write_ctts scale (has_composition l) off l = [] <-> off = 0 /\ forall c d, In (c, d) l -> c = d.
Proof.
  intros scale off l. unfold write_ctts. split.
  - intros H. destruct (has_composition l) eqn:E; cbn [negb andb] in H; [destruct (ctts_loop scale off 0 l 0 0) as [[[? ?] ?] ?]; discriminate|]. destruct (Z.eqb_spec off 0) as [->|]; [|destruct (ctts_loop scale off 0 l 0 0) as [[[? ?] ?] ?]; discriminate].
    split; [reflexivity|]. intros c d I. unfold has_composition in E. destruct (Z.eq_dec c d) as [|N]; [assumption|]. exfalso. assert (existsb (fun s => negb (fst s =? snd s)) l = true); [|congruence]. apply existsb_exists. exists (c, d). split; [exact I|]. cbn [fst snd]. apply negb_true_iff, Z.eqb_neq. exact N.
  - intros [-> H]. replace (has_composition l) with false; [reflexivity|]. symmetry. unfold has_composition. destruct (existsb _ l) eqn:E; [|reflexivity]. apply existsb_exists in E. destruct E as ([c d] & I & Q). cbn [fst snd] in Q. rewrite (H c d I), Z.eqb_refl in Q. discriminate.
Qed.
Lemma single_stts : forall scale unscale b d, write_stts scale unscale b [d] = [24; box_stts; 0; 1; 2; 0].
Proof. intros. unfold write_stts. cbn [stts_loop]. change (0 =? 1) with false. cbv iota. change (0 <? 0) with false. rewrite andb_false_r. cbv iota. change (length [d]) with 1%nat. change (0 <? 1)%nat with true. cbn [orb]. reflexivity. Qed.
(** ** Key frame tables *)
Lemma key_search : forall flags, Z.of_nat (length flags) < 2 ^ 31 -> existsb (fun b => b) flags = true -> exists m, parse_stss (skipn 2 (write_stss (iframes 0 flags))) = Some (m, [])
  /\ forall s f, (f <= s)%nat -> (s < length flags)%nat -> nth f flags false = true ->
     exists k lim k2 lim2, iframe_at m (Z.of_nat s) = Some (Z.of_nat k, lim) /\ (k <= s)%nat /\ nth k flags false = true /\ (forall j, (k < j <= s)%nat -> nth j flags false = false)
       /\ next_iframe m lim = Some (Z.of_nat k2, lim2) /\ nth k2 flags false = true
       /\ ((exists j, (s < j)%nat /\ nth j flags false = true) -> (s < k2)%nat /\ forall j, (s < j < k2)%nat -> nth j flags false = false)
       /\ ((forall j, (s < j)%nat -> nth j flags false = false) -> k2 = k).
Proof.
  intros flags B Ex. pose proof (iframes_sorted flags 0) as Ss.
  assert (Fb : Forall (fun k => 0 <= k < 2 ^ 32 - 1) (iframes 0 flags)) by (apply Forall_forall; intros k Hk; apply iframes_spec in Hk; lia).
  assert (Lb : forall l a, (length (iframes a l) <= length l)%nat). { clear. induction l as [|b l IH]; intros a; [cbn; lia|]. cbn [iframes]. rewrite app_length. cbn [length]. specialize (IH (a + 1)). destruct b; cbn [length]; lia. }
  specialize (Lb flags 0). assert (Sp : forall k, In k (iframes 0 flags) <-> 0 <= k < Z.of_nat (length flags) /\ nth (Z.to_nat k) flags false = true) by (intros k; rewrite iframes_spec, Z.sub_0_r; lia || (split; intros [? ?]; split; [lia|assumption|lia|assumption])).
  destruct (iframes 0 flags) as [|k0 ks] eqn:Ei.
  { exfalso. apply existsb_exists in Ex. destruct Ex as (b & Hb & ->). apply (In_nth _ _ false) in Hb. destruct Hb as (i & Hi & E). assert (In (Z.of_nat i) []) as Q by (apply Sp; split; [lia|]; rewrite Nat2Z.id; exact E). exact Q. }
  exists (keytab k0 ks). split; [apply parse_stss_spec; [exact Ss|exact Fb|cbn [length] in Lb; lia]|]. intros s f Hf Hs Hft.
  assert (If : In (Z.of_nat f) (k0 :: ks)) by (apply Sp; split; [lia|]; rewrite Nat2Z.id; exact Hft).
  assert (Hk0 : k0 <= Z.of_nat s). { destruct If as [->|If]; [lia|]. apply StronglySorted_inv in Ss. destruct Ss as [_ Ss]. rewrite Forall_forall in Ss. specialize (Ss _ If). lia. }
  destruct (iframe_before k0 ks (Z.of_nat s) Ss Hk0) as (k & lim & E & A1 & A2 & A3). destruct (next_after k0 ks (Z.of_nat s) k lim Ss Fb Hk0 E) as (k2 & lim2 & G1 & G2 & G3).
  pose proof (proj1 (Sp k) A1) as (K1 & K2).
  exists (Z.to_nat k), lim, (Z.to_nat k2), lim2. rewrite Z2Nat.id by lia. split; [exact E|]. split; [lia|]. split; [exact K2|]. split.
  { intros j Hj. destruct (nth j flags false) eqn:Ej; [|reflexivity]. assert (In (Z.of_nat j) (k0 :: ks)) as Q by (apply Sp; split; [|rewrite Nat2Z.id; exact Ej]; lia). specialize (A3 _ Q ltac:(lia)). lia. }
  assert (Out : forall j, nth j flags false = true -> (j < length flags)%nat) by (intros j Hj; destruct (Nat.lt_ge_cases j (length flags)) as [Q|Q]; [exact Q|rewrite nth_overflow in Hj by exact Q; discriminate]).
  assert (Dec : (exists k', In k' (k0 :: ks) /\ Z.of_nat s < k') \/ (forall k', In k' (k0 :: ks) -> k' <= Z.of_nat s)).
  { generalize (k0 :: ks). clear. intros l. induction l as [|x l IH]; [right; intros ? []|]. destruct IH as [(k' & I1 & I2)|I]; [left; exists k'; split; [right; exact I1|exact I2]|]. destruct (Z.lt_ge_cases (Z.of_nat s) x) as [Q|Q]; [left; exists x; split; [left; reflexivity|exact Q]|right; intros k' [<-|Hk]; [lia|apply I; exact Hk]]. }
  assert (Nk : (exists j, (s < j)%nat /\ nth j flags false = true) -> exists k', In k' (k0 :: ks) /\ Z.of_nat s < k').
  { intros (j & J1 & J2). exists (Z.of_nat j). split; [apply Sp; split; [specialize (Out j J2); lia|rewrite Nat2Z.id; exact J2]|lia]. }
  assert (I2 : In k2 (k0 :: ks)). { destruct Dec as [D|D]; [apply G2; exact D|rewrite (G3 D); exact A1]. } pose proof (proj1 (Sp k2) I2) as (M1 & M2).
  rewrite Z2Nat.id by lia. split; [exact G1|]. split; [exact M2|]. split.
  - intros Hx. destruct (G2 (Nk Hx)) as (_ & L1 & L2). split; [lia|]. intros j Hj. destruct (nth j flags false) eqn:Ej; [|reflexivity]. specialize (L2 (Z.of_nat j)). assert (In (Z.of_nat j) (k0 :: ks)) as Q by (apply Sp; split; [specialize (Out j Ej); lia|rewrite Nat2Z.id; exact Ej]). specialize (L2 Q ltac:(lia)). lia.
  - intros Hx. f_equal. apply G3. intros k' I'. pose proof (proj1 (Sp k') I') as (O1 & O2). destruct (Z.le_gt_cases k' (Z.of_nat s)) as [Q|Q]; [exact Q|]. rewrite (Hx (Z.to_nat k')) in O2 by lia. discriminate.
Qed.
Lemma no_keys : forall n, write_stss (iframes 0 (repeat false n)) = [].
Proof.
  intros n. replace (iframes 0 (repeat false n)) with (@nil Z); [reflexivity|]. generalize 0. induction n as [|n IH]; intros a; [reflexivity|]. cbn [repeat iframes app]. apply IH.
Qed.
(** ** By composition time, no composition offsets *)
Lemma composition_search : forall rs ts rest ord k, Forall (fun r => 0 < fst r)%nat rs -> Forall (fun r => 0 < snd r < 2 ^ 32) rs -> rs <> [] -> Z.of_nat (length (expand rs)) < 2 ^ 31 ->
  exists times tb, parse_stts (0 :: Z.of_nat (length rs) :: enc2 rs ++ rest) = Some (times, tb, rest)
  /\ forall time, 0 <= of_hns ts time < zsum (expand rs) -> exists i, (i < length times)%nat /\ fst (nth i times (0, 0)) <= of_hns ts time < fst (nth i times (0, 0)) + snd (nth i times (0, 0))
     /\ composition_sample_hns ts (mkT times [] false ord tb k) time = Some (if (i =? 0)%nat then 0 else if fst (nth i times (0, 0)) =? of_hns ts time then Z.of_nat i else Z.min (Z.of_nat i + 1) (Z.of_nat (length times) - 1)).
Proof.
  intros rs ts rest ord k F1 F2 N B. destruct (any_stts rs rest [] false ord k F1 F2 N B) as (times & tb & E1 & E2 & E3). exists times, tb. split; [exact E1|]. intros time Ht.
  assert (Zb : zsum (expand rs) < 2 ^ 63).
  { assert (Fx : Forall (fun x => 0 <= x < 2 ^ 32) (expand rs)). { unfold expand. apply Forall_concat, Forall_map. eapply Forall_impl; [|exact F2]. intros [a b] Hb. cbn [fst snd] in *. apply Forall_forall. intros x Hx. apply repeat_spec in Hx. lia. }
    pose proof (zsum_bound _ Fx). nia. }
  destruct (E3 (of_hns ts time) ltac:(lia)) as [A _]. destruct (A ltac:(lia)) as (i & G1 & G2 & G3). exists i. split; [exact G2|]. split; [exact G3|].
  unfold composition_sample_hns. unfold composition_sample. cbn [t_has_ctts t_times]. rewrite G1. set (x := of_hns ts time) in *.
  destruct (Nat.eqb_spec i 0) as [->|Ni]; [reflexivity|]. rewrite (proj2 (Z.eqb_neq (Z.of_nat i) 0)) by lia. rewrite (proj2 (Z.leb_gt (Z.of_nat (length times)) (Z.of_nat i))) by lia.
  unfold composition_time, decoding_time. rewrite (proj2 (Z.ltb_ge (Z.of_nat i) 0)) by lia. rewrite Nat2Z.id. cbn [t_times t_offsets]. rewrite (nth_error_nth' times (0, 0) G2). cbn [option_map].
  replace (nth i [] 0) with 0 by (destruct i; reflexivity). rewrite Z.add_0_r.
  assert (D0 : 0 <= fst (nth i times (0, 0))). { rewrite E2, times_of_nth by (rewrite E2, times_of_length in G2; exact G2). cbn [fst]. assert (Fx : Forall (fun x => 0 <= x) (expand rs)). { unfold expand. apply Forall_concat, Forall_map. eapply Forall_impl; [|exact F2]. intros [a b] Hb. cbn [fst snd] in *. apply Forall_forall. intros y Hy. apply repeat_spec in Hy. lia. } pose proof (zsum_nonneg _ (Forall_firstn' _ i _ Fx)). lia. }
  rewrite u64_id by lia. destruct (Z.ltb_spec (fst (nth i times (0, 0))) x) as [Q|Q].
  - rewrite (proj2 (Z.eqb_neq (fst (nth i times (0, 0))) x)) by lia. destruct (Z.leb_spec (Z.of_nat (length times)) (Z.of_nat i + 1)); f_equal; lia.
  - rewrite (proj2 (Z.eqb_eq (fst (nth i times (0, 0))) x)) by lia. destruct (Z.leb_spec (Z.of_nat (length times)) (Z.of_nat i)); f_equal; lia.
Qed.
