(** Lemmas about TimeTab_model: the run-length coded tables. *)
From Coq Require Import ZifyNat Permutation.
From Verif Require Import Util RangeMap_model RangeMap_proofs SampleTab_model SampleTab_proofs TimeTab_model.
Local Open Scope Z_scope.

(** ** Run-length coding *)
Lemma enc2_app : forall a b, enc2 (a ++ b) = enc2 a ++ enc2 b.
Proof. induction a as [|[n c] a IH]; intros b; [reflexivity|]. cbn [app enc2]. rewrite IH. reflexivity. Qed.
Fixpoint rle (cs : list Z) (delta count : Z) : list Z * Z * Z * Z :=
  match cs with
  | [] => ([], 0, delta, count)
  | c :: cs => if c =? delta then rle cs delta (count + 1) else let '(ws, n, d', c') := rle cs c 1 in (count :: delta :: ws, n + 1, d', c')
  end.
Lemma rle_spec : forall cs delta count e, 0 < count -> exists rs ws d' c', rle cs delta count = (ws, Z.of_nat (length rs) - 1, d', c') /\ rs <> [] /\ d' = last cs delta
  /\ ws ++ [c' + Z.of_nat e; d'] = enc2 rs /\ expand rs = repeat delta (Z.to_nat count) ++ cs ++ repeat (last cs delta) e /\ Forall (fun r => 0 < fst r)%nat rs.
Proof.
  induction cs as [|c cs IH]; intros delta count e H.
  - exists [(Z.to_nat count + e, delta)%nat], [], delta, count. split; [reflexivity|]. split; [discriminate|]. split; [reflexivity|]. split; [cbn [enc2 app]; f_equal; lia|].
    split; [unfold expand; cbn [map concat fst snd last app]; rewrite app_nil_r; apply repeat_app|]. constructor; [cbn [fst]; lia|constructor].
  - cbn [rle]. destruct (Z.eqb_spec c delta) as [->|N].
    + destruct (IH delta (count + 1) e ltac:(lia)) as (rs & ws & d' & c' & E1 & E2 & E3 & E4 & E5 & E6). exists rs, ws, d', c'.
      assert (L : last (delta :: cs) delta = last cs delta) by (destruct cs; reflexivity). rewrite L.
      split; [exact E1|]. split; [exact E2|]. split; [exact E3|]. split; [exact E4|]. split; [|exact E6]. rewrite E5. replace (Z.to_nat (count + 1)) with (Z.to_nat count + 1)%nat by lia. rewrite repeat_app. cbn [repeat]. rewrite <- app_assoc. reflexivity.
    + destruct (IH c 1 e ltac:(lia)) as (rs & ws & d' & c' & E1 & E2 & E3 & E4 & E5 & E6). rewrite E1.
      assert (L : last (c :: cs) delta = last cs c) by (clear; revert c delta; induction cs as [|x cs IH]; intros; [reflexivity|]; cbn [last] in *; destruct cs; [reflexivity|]; apply IH).
      rewrite L. exists ((Z.to_nat count, delta) :: rs), (count :: delta :: ws), d', c'. split; [f_equal; f_equal; f_equal; cbn [length]; lia|]. split; [discriminate|]. split; [exact E3|].
      split; [cbn [app enc2]; rewrite E4; f_equal; lia|]. split; [rewrite expand_cons, E5; reflexivity|]. constructor; [cbn [fst]; lia|exact E6].
Qed.
Lemma rle_count_bound : forall cs delta count, 0 < count -> forall ws n d' c', rle cs delta count = (ws, n, d', c') -> 0 < c' <= count + Z.of_nat (length cs) /\ 0 <= n <= Z.of_nat (length cs).
Proof.
  induction cs as [|c cs IH]; intros delta count H ws n d' c' E; cbn [rle length] in *.
  - injection E as <- <- <- <-. lia.
  - destruct (Z.eqb_spec c delta).
    + specialize (IH delta (count + 1) ltac:(lia) _ _ _ _ E). lia.
    + destruct (rle cs c 1) as [[[ws1 n1] d1] c1] eqn:R. specialize (IH c 1 ltac:(lia) _ _ _ _ R). injection E as <- <- <- <-. lia.
Qed.

(** ** Writing the decoding times *)
Fixpoint ticks (scale unscale : Z -> Z) (last : Z) (ds : list Z) : list Z :=
  match ds with [] => [] | d :: ds => scale (d - last) :: ticks scale unscale (last + unscale (scale (d - last))) ds end.
(** no wrap-around: the running time is never ahead of a sample, ticks fit in 32 bits *)
Fixpoint tame (scale unscale : Z -> Z) (last : Z) (ds : list Z) : Prop :=
  match ds with [] => True | d :: ds => 0 <= last <= d /\ d < 2 ^ 64 /\ 0 <= scale (d - last) < 2 ^ 32 /\ last + unscale (scale (d - last)) < 2 ^ 64 /\ tame scale unscale (last + unscale (scale (d - last))) ds end.
Lemma tame_next : forall scale unscale last d ds, tame scale unscale last (d :: ds) -> ds <> [] -> 0 <= last + unscale (scale (d - last)).
Proof. intros scale unscale last d [|d' ds] H N; [congruence|]. destruct H as (_ & _ & _ & _ & H). destruct H as [H _]. lia. Qed.
Lemma stts_loop_rle : forall scale unscale ds i last delta count, 2 <= i -> 0 < count -> count + Z.of_nat (length ds) < 2 ^ 32 -> tame scale unscale last ds -> stts_loop scale unscale i ds last delta count = rle (ticks scale unscale last ds) delta count.
Proof.
  induction ds as [|d ds IH]; intros i last delta count Hi Hc B T; [reflexivity|]. cbn [stts_loop ticks rle length] in *. pose proof T as (T1 & T2 & T3 & T4 & T5).
  rewrite (proj2 (Z.eqb_neq i 1)) by lia. rewrite (proj2 (Z.ltb_lt 0 i)) by lia. rewrite (u64_id (d - last)) by lia. rewrite andb_true_r.
  destruct ds as [|d2 ds].
  - destruct (Z.eqb_spec (scale (d - last)) delta); cbn [negb stts_loop ticks rle]; [reflexivity|]. rewrite !u32_id by (cbn [length] in *; lia). reflexivity.
  - pose proof (tame_next _ _ _ _ _ T ltac:(discriminate)) as T6. rewrite u64_id by lia.
    destruct (Z.eqb_spec (scale (d - last)) delta); cbn [negb].
    + apply IH; (lia || assumption).
    + rewrite (u32_id count) by (cbn [length] in *; lia). rewrite (u32_id (scale (d - last))) by lia. rewrite (IH (i + 1) _ (scale (d - last)) 1) by (cbn [length] in *; lia || assumption). reflexivity.
Qed.
(** what [write_stts] writes for two samples or more *)
Lemma write_stts_spec : forall scale unscale b d0 d1 ds, Z.of_nat (length ds) < 2 ^ 31 -> tame scale unscale 0 (d0 :: d1 :: ds) ->
  let l0 := unscale (scale d0) in let ts := ticks scale unscale l0 (d1 :: ds) in
  exists rs, write_stts scale unscale b (d0 :: d1 :: ds) = fullbox box_stts (Z.of_nat (length rs) :: enc2 rs) /\ expand rs = ts ++ [last ts 0] /\ Forall (fun r => 0 < fst r)%nat rs.
Proof.
  intros scale unscale b d0 d1 ds B T l0 ts. pose proof T as (T1 & T2 & T3 & T4 & T5 & T6 & T7 & T8 & T9).
  rewrite Z.sub_0_r, Z.add_0_l in *. fold l0 in T4, T5, T7, T8, T9 |- *.
  unfold write_stts. cbn [stts_loop]. change (0 =? 1) with false. change (0 <? 0) with false. rewrite andb_false_r. cbv iota. change (0 + 1) with 1. change (1 =? 1) with true. cbv iota.
  rewrite Z.sub_0_r, (u64_id d0), Z.add_0_l by lia. fold l0. rewrite (u64_id l0), (u64_id (d1 - l0)) by lia. rewrite (u32_id (scale (d1 - l0))) by lia. rewrite Z.eqb_refl. cbn [negb andb]. cbv iota. change (0 + 1) with 1. change (1 + 1) with 2.
  assert (R : stts_loop scale unscale 2 ds (u64 (l0 + unscale (scale (d1 - l0)))) (scale (d1 - l0)) 1 = rle (ticks scale unscale (l0 + unscale (scale (d1 - l0))) ds) (scale (d1 - l0)) 1).
  { destruct ds as [|d2 ds]; [reflexivity|]. rewrite u64_id by (destruct T9 as [T9 _]; lia). apply stts_loop_rle; (lia || exact T9). }
  rewrite R. set (cs := ticks scale unscale (l0 + unscale (scale (d1 - l0))) ds) in *. change ts with (scale (d1 - l0) :: cs).
  destruct (rle_spec cs (scale (d1 - l0)) 1 1 ltac:(lia)) as (rs & ws & d' & c' & E1 & E2 & E3 & E4 & E5 & E6). rewrite E1.
  assert (Lc : length cs = length ds) by (unfold cs; generalize (l0 + unscale (scale (d1 - l0))); clear; induction ds as [|d ds IH]; intros z; [reflexivity|]; cbn [ticks length]; rewrite IH; reflexivity).
  pose proof (rle_count_bound cs _ 1 ltac:(lia) _ _ _ _ E1) as Bd. rewrite Lc in Bd.
  exists rs. cbn [length Nat.ltb Nat.leb orb]. split; [|split; [|exact E6]].
  - change (0 <? S (S (length ds)))%nat with true. cbn [orb]. cbv iota. rewrite !u32_id by lia. f_equal. f_equal; [lia|]. exact E4.
  - rewrite E5. cbn [repeat app]. replace (last (scale (d1 - l0) :: cs) 0) with (last cs (scale (d1 - l0))); [reflexivity|]. generalize (scale (d1 - l0)). clear. induction cs as [|x cs IH]; intros z; [reflexivity|]. cbn [last] in *. destruct cs; [reflexivity|]. apply (IH z).
Qed.

(** ** Reading them *)
Fixpoint tabd (samples dur : Z) (rs : list (nat * Z)) : table decoding :=
  match rs with [] => [] | (n, c) :: r => (dur + Z.of_nat n * c, mkD samples dur c) :: tabd (samples + Z.of_nat n) (dur + Z.of_nat n * c) r end.
Lemma stts_run_spec : forall n t d, 0 <= t -> 0 <= d -> t + Z.of_nat n * d < 2 ^ 64 -> stts_run n t d = times_of t (repeat d n) /\ stts_total n t d = t + Z.of_nat n * d.
Proof.
  induction n as [|n IH]; intros t d Ht Hd B; [cbn; split; [reflexivity|lia]|]. cbn [stts_run stts_total repeat times_of]. assert (0 <= Z.of_nat n * d) by nia.
  rewrite u64_id by lia. destruct (IH (t + d) d ltac:(lia) Hd ltac:(lia)) as [-> ->]. split; [reflexivity|lia].
Qed.
Lemma times_of_app : forall a t b, times_of t (a ++ b) = times_of t a ++ times_of (t + zsum a) b.
Proof. induction a as [|x a IH]; intros t b; [cbn; rewrite Z.add_0_r; reflexivity|]. cbn [app times_of]. rewrite IH, zsum_cons. do 2 f_equal. f_equal. lia. Qed.
Lemma stts_read_spec : forall rs samples dur times t rest, 0 <= samples -> 0 <= dur -> Forall (fun r => 0 <= snd r) rs -> samples + Z.of_nat (length (expand rs)) < 2 ^ 32 -> dur + zsum (expand rs) < 2 ^ 64 ->
  stts_read (length rs) samples dur times t (enc2 rs ++ rest) = Some (times ++ times_of dur (expand rs), t ++ tabd samples dur rs, rest).
Proof.
  induction rs as [|[n c] rs IH]; intros samples dur times t rest Hs Hd F B1 B2; [cbn; rewrite !app_nil_r; reflexivity|].
  cbn [length stts_read enc2 app tabd]. pose proof (Forall_inv F) as f. cbn [snd] in f. rewrite expand_cons in *. rewrite app_length, repeat_length in B1. rewrite zsum_app, zsum_repeat in B2.
  assert (0 <= zsum (expand rs)). { apply zsum_nonneg. unfold expand. apply Forall_concat, Forall_map. eapply Forall_impl; [|exact (Forall_inv_tail F)]. intros [a b] Hb. cbn [fst snd] in *. apply Forall_forall. intros x Hx. apply repeat_spec in Hx. lia. }
  rewrite Nat2Z.id. assert (0 <= Z.of_nat n * c) by nia. destruct (stts_run_spec n dur c Hd f ltac:(lia)) as [-> ->]. rewrite u64_id by lia.
  rewrite IH; [|lia|lia|exact (Forall_inv_tail F)|lia|lia]. f_equal. f_equal. f_equal.
  - rewrite times_of_app, zsum_repeat, <- app_assoc. reflexivity.
  - unfold rm_add. rewrite <- app_assoc. reflexivity.
Qed.
Lemma parse_stts_spec : forall rs rest, Forall (fun r => 0 <= snd r) rs -> Z.of_nat (length (expand rs)) < 2 ^ 32 -> zsum (expand rs) < 2 ^ 64 ->
  parse_stts (0 :: Z.of_nat (length rs) :: enc2 rs ++ rest) = Some (times_of 0 (expand rs), tabd 0 0 rs, rest).
Proof. intros rs rest F B1 B2. unfold parse_stts. rewrite Nat2Z.id, (stts_read_spec rs 0 0 [] [] rest) by (lia || assumption). reflexivity. Qed.
Lemma times_of_length : forall ds t, length (times_of t ds) = length ds.
Proof. induction ds as [|d ds IH]; intros t; cbn [times_of length]; [reflexivity|rewrite IH; reflexivity]. Qed.
Lemma times_of_nth : forall ds t i e, (i < length ds)%nat -> nth i (times_of t ds) e = (t + zsum (firstn i ds), nth i ds 0).
Proof.
  induction ds as [|d ds IH]; intros t i e H; [cbn in H; lia|]. destruct i as [|i]; [cbn; f_equal; lia|]. cbn [length] in H. cbn [times_of nth]. rewrite IH by lia. cbn [firstn]. rewrite zsum_cons. f_equal. lia.
Qed.

(** ** Composition offsets *)
Lemma ctts_loop_rle : forall scale off l i delta count, 1 <= i -> 0 < count -> count + Z.of_nat (length l) < 2 ^ 32 -> ctts_tame scale off l -> ctts_loop scale off i l delta count = rle (offsets scale off l) delta count.
Proof.
  induction l as [|[c d] l IH]; intros i delta count Hi Hc B T; [reflexivity|]. cbn [ctts_loop offsets map rle fst snd length] in *. pose proof (Forall_inv T) as [T1 T2]. cbn [fst snd] in *.
  rewrite (proj2 (Z.eqb_neq i 0)) by lia. rewrite (u64_id (c - d + off)) by lia. destruct (Z.eqb_spec (scale (c - d + off)) delta); cbn [negb].
  - apply IH; try lia. exact (Forall_inv_tail T).
  - rewrite !u32_id by lia. rewrite IH; [reflexivity|lia..|exact (Forall_inv_tail T)].
Qed.
Lemma write_ctts_spec : forall scale has off l, l <> [] -> Z.of_nat (length l) < 2 ^ 31 -> ctts_tame scale off l -> has = true \/ off <> 0 ->
  exists rs, write_ctts scale has off l = fullbox box_ctts (Z.of_nat (length rs) :: enc2 rs) /\ expand rs = offsets scale off l.
Proof.
  intros scale has off [|[c d] l] N B T H; [congruence|]. unfold write_ctts. replace (negb has && (off =? 0)) with false by (destruct H as [->|H]; [reflexivity|rewrite (proj2 (Z.eqb_neq off 0) H), andb_false_r; reflexivity]).
  cbn [ctts_loop]. change (0 =? 0) with true. cbv iota. pose proof (Forall_inv T) as [T1 T2]. cbn [fst snd] in *. rewrite (u64_id (c - d + off)), (u32_id (scale (c - d + off))) by lia. rewrite Z.eqb_refl. cbn [negb]. cbn [length] in B.
  rewrite ctts_loop_rle by (lia || exact (Forall_inv_tail T)). destruct (rle_spec (offsets scale off l) (scale (c - d + off)) 1 0 ltac:(lia)) as (rs & ws & d' & c' & E1 & E2 & E3 & E4 & E5 & E6).
  change (0 + 1) with 1. rewrite E1. pose proof (rle_count_bound _ _ 1 ltac:(lia) _ _ _ _ E1) as Bd. unfold offsets in Bd. rewrite map_length in Bd.
  exists rs. split; [rewrite !u32_id by lia; f_equal; f_equal; [lia|]; rewrite <- E4; rewrite Z.add_0_r; reflexivity|]. rewrite E5. cbn [repeat app]. rewrite app_nil_r. reflexivity.
Qed.
(** the samples one by one *)
Fixpoint ctts_seq (offs : list Z) (num : Z) (times ord : list (Z * Z)) : option (list (Z * Z)) :=
  match offs, times with
  | o :: offs, (d, _) :: times => match add_ordered ord (u64 (d + o), num) with Some ord => ctts_seq offs (num + 1) times ord | None => None end
  | _, _ => Some ord
  end.
Lemma ctts_run_spec : forall n off num times ord offs, (n <= length times)%nat ->
  ctts_seq (repeat off n ++ offs) num times ord = match ctts_run n off num times ord with Some (o, num', times', ord') => ctts_seq offs num' times' ord' | None => None end
  /\ (forall o num' times' ord', ctts_run n off num times ord = Some (o, num', times', ord') -> o = repeat off n /\ times' = skipn n times).
Proof.
  induction n as [|n IH]; intros off num times ord offs H; [split; [reflexivity|]; intros o num' times' ord' E; injection E as <- <- <- <-; split; reflexivity|].
  destruct times as [|[d e] times]; [cbn in H; lia|]. cbn [length] in H. cbn [repeat app ctts_seq ctts_run].
  destruct (add_ordered ord (u64 (d + off), num)) as [ord1|]; [|split; [reflexivity|discriminate]].
  destruct (IH off (num + 1) times ord1 offs ltac:(lia)) as [E1 E2]. rewrite E1. destruct (ctts_run n off (num + 1) times ord1) as [[[[o num1] times1] ord2]|]; [|split; [reflexivity|discriminate]].
  split; [reflexivity|]. intros o' num' times' ord' E. injection E as <- <- <- <-. destruct (E2 _ _ _ _ eq_refl) as [-> ->]. split; reflexivity.
Qed.
Lemma ctts_read_spec : forall rs num times ord rest, (length (expand rs) <= length times)%nat ->
  ctts_read (length rs) num times ord (enc2 rs ++ rest) = match ctts_seq (expand rs) num times ord with Some ord' => Some (expand rs, ord', rest) | None => None end.
Proof.
  induction rs as [|[n c] rs IH]; intros num times ord rest H; [cbn; destruct times; reflexivity|]. rewrite expand_cons in *. rewrite app_length, repeat_length in H. cbn [length ctts_read enc2 app]. rewrite Nat2Z.id.
  destruct (ctts_run_spec n c num times ord (expand rs) ltac:(lia)) as [E1 E2]. rewrite E1. destruct (ctts_run n c num times ord) as [[[[o num1] times1] ord1]|]; [|reflexivity].
  destruct (E2 _ _ _ _ eq_refl) as [-> ->]. rewrite IH by (rewrite skipn_length; lia). destruct (ctts_seq (expand rs) num1 (skipn n times) ord1); reflexivity.
Qed.
