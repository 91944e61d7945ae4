(** Lemmas about SampleTab_model. *)
From Coq Require Import ZifyNat.
From Verif Require Import Util RangeMap_model RangeMap_proofs SampleTab_model.
Local Open Scope Z_scope.

Lemma u32_id : forall z, 0 <= z < 2 ^ 32 -> u32 z = z.
Proof. intros. apply Z.mod_small. assumption. Qed.
Lemma u64_id : forall z, 0 <= z < 2 ^ 64 -> u64 z = z.
Proof. intros. apply Z.mod_small. assumption. Qed.
Lemma zsum_app : forall a b, zsum (a ++ b) = zsum a + zsum b.
Proof. induction a as [|x a IH]; intros b; [reflexivity|]. cbn [app zsum fold_right]. fold (zsum (a ++ b)) (zsum a). rewrite IH. lia. Qed.
Lemma zsum_cons : forall x l, zsum (x :: l) = x + zsum l. Proof. reflexivity. Qed.
Lemma zsum_nonneg : forall l, Forall (fun x => 0 <= x) l -> 0 <= zsum l.
Proof. induction 1; [cbn; lia|]. rewrite zsum_cons. lia. Qed.
Lemma zsum_repeat : forall c n, zsum (repeat c n) = Z.of_nat n * c.
Proof. induction n as [|n IH]; [reflexivity|]. cbn [repeat]. rewrite zsum_cons, IH. lia. Qed.

(** ** Runs of chunks *)
Notation run := (nat * Z)%type.
Fixpoint enc (fc : Z) (rs : list run) : list Z := match rs with [] => [] | (n, c) :: r => fc :: c :: 1 :: enc (fc + Z.of_nat n) r end.
Fixpoint tab (fc fs : Z) (rs : list run) : table chunk :=
  match rs with [] => [] | (n, c) :: r => (fs + Z.of_nat n * c, mkC c 1 fs fc) :: tab (fc + Z.of_nat n) (fs + Z.of_nat n * c) r end.
Definition chunks_of (rs : list run) : Z := Z.of_nat (length (expand rs)).
Lemma expand_cons : forall n c r, expand ((n, c) :: r) = repeat c n ++ expand r. Proof. reflexivity. Qed.
Lemma expand_app : forall a b, expand (a ++ b) = expand a ++ expand b.
Proof. intros. unfold expand. rewrite map_app, concat_app. reflexivity. Qed.
Lemma enc_app : forall a b fc, enc fc (a ++ b) = enc fc a ++ enc (fc + chunks_of a) b.
Proof.
  induction a as [|[n c] a IH]; intros b fc.
  - cbn [app enc]. unfold chunks_of. cbn. f_equal. lia.
  - cbn [app enc]. rewrite IH. do 3 f_equal. f_equal. f_equal. unfold chunks_of. rewrite expand_cons, app_length, repeat_length. lia.
Qed.
Lemma enc_length : forall rs fc, length (enc fc rs) = (3 * length rs)%nat.
Proof. induction rs as [|[n c] r IH]; intros fc; [reflexivity|]. cbn [enc length]. rewrite IH. lia. Qed.

(** ** The writer *)
Lemma stsc_loop_spec : forall cs i start count, 1 <= i -> 1 <= start <= i -> 0 < count < 2 ^ 32 -> Forall (fun c => 0 < c < 2 ^ 32) cs -> i + Z.of_nat (length cs) < 2 ^ 32 ->
  exists rs ws s c, stsc_loop i cs start count = (ws, Z.of_nat (length rs) - 1, s, c) /\ rs <> [] /\ ws ++ [s; c; 1] = enc start rs
    /\ expand rs = repeat count (Z.to_nat (i + 1 - start)) ++ cs /\ Forall (fun r => 0 < fst r)%nat rs.
Proof.
  induction cs as [|c cs IH]; intros i start count Hi Hs Hc F L.
  - exists [(Z.to_nat (i + 1 - start), count)], [], start, count. split; [reflexivity|]. split; [discriminate|]. split; [reflexivity|].
    split; [reflexivity|]. constructor; [cbn [fst]; lia|constructor].
  - cbn [stsc_loop length] in *. rewrite (proj2 (Z.eqb_neq i 0)) by lia. pose proof (Forall_inv F) as Fc. cbv beta in Fc.
    destruct (Z.eqb_spec c count) as [->|N].
    + destruct (IH (i + 1) start count ltac:(lia) ltac:(lia) Hc (Forall_inv_tail F) ltac:(lia)) as (rs & ws & s & c' & E1 & E2 & E3 & E4 & E5).
      exists rs, ws, s, c'. split; [exact E1|]. split; [exact E2|]. split; [exact E3|]. split; [|exact E5]. rewrite E4.
      replace (Z.to_nat (i + 1 + 1 - start)) with (Z.to_nat (i + 1 - start) + 1)%nat by lia. rewrite repeat_app. cbn [repeat]. rewrite <- app_assoc. reflexivity.
    + rewrite !u32_id by lia.
      destruct (IH (i + 1) (i + 1) c ltac:(lia) ltac:(lia) Fc (Forall_inv_tail F) ltac:(lia)) as (rs & ws & s & c' & E1 & E2 & E3 & E4 & E5).
      exists ((Z.to_nat (i + 1 - start), count) :: rs), (start :: count :: 1 :: ws), s, c'. rewrite E1. split; [f_equal; f_equal; f_equal; cbn [length]; lia|].
      split; [discriminate|]. cbn [enc app]. replace (start + Z.of_nat (Z.to_nat (i + 1 - start))) with (i + 1) by lia. rewrite E3. split; [reflexivity|].
      rewrite expand_cons, E4. replace (Z.to_nat (i + 1 + 1 - (i + 1))) with 1%nat by lia. split; [reflexivity|]. constructor; [cbn [fst]; lia|exact E5].
Qed.
Lemma removelast_last : forall (cs : list Z), cs <> [] -> removelast cs ++ [last cs 0] = cs.
Proof. intros. symmetry. apply app_removelast_last. assumption. Qed.
Lemma write_stsc_spec : forall cs b, cs <> [] -> Forall (fun c => 0 < c < 2 ^ 32) cs -> Z.of_nat (length cs) < 2 ^ 31 ->
  exists rs, write_stsc b cs = Some (fullbox box_stsc (Z.of_nat (length rs) :: enc 1 rs)) /\ expand rs = cs /\ Forall (fun r => 0 < fst r)%nat rs
    /\ exists rs', rs = rs' ++ [(1%nat, last cs 0)].
Proof.
  intros cs b N F L. unfold write_stsc. destruct cs as [|c cs0] eqn:Ecs; [contradiction|]. rewrite <- Ecs in *.
  pose proof (removelast_last cs N) as R. pose proof F as F'. rewrite <- R in F'. apply Forall_app in F'. destruct F' as [F1 F2]. apply Forall_inv in F2. cbv beta in F2.
  assert (Lr : length cs = S (length (removelast cs))). { rewrite <- R at 1. rewrite app_length. cbn. lia. }
  destruct (removelast cs) as [|d ds] eqn:Er.
  - exists [(1%nat, last cs 0)]. cbn [stsc_loop]. rewrite Lr. cbn [length]. cbn [Nat.ltb Nat.leb app]. split.
    + f_equal. f_equal. rewrite u32_id by lia. change (enc 1 [(1%nat, last cs 0)]) with [1; last cs 0; 1]. rewrite !u32_id by (cbn; lia). reflexivity.
    + split; [rewrite <- R at 2; reflexivity|]. split; [constructor; [cbn; lia|constructor]|]. exists []. reflexivity.
  - cbn [stsc_loop]. cbn [Z.eqb]. pose proof (Forall_inv F1) as Fd. cbv beta in Fd. rewrite (u32_id d) by lia. rewrite Z.eqb_refl. rewrite Lr. cbn [length] in Lr |- *.
    destruct (stsc_loop_spec ds 1 1 d ltac:(lia) ltac:(lia) ltac:(lia) (Forall_inv_tail F1) ltac:(lia)) as (rs & ws & s & c' & E1 & E2 & E3 & E4 & E5).
    change (0 + 1) with 1. rewrite E1. rewrite (proj2 (Nat.ltb_lt 1 (S (S (length ds))))) by lia.
    assert (Xrs : expand rs = d :: ds). { rewrite E4. reflexivity. }
    assert (Lrs : (length rs <= length ds + 1)%nat). { transitivity (length (expand rs)); [clear - E5; induction rs as [|[n c] rs IH]; [cbn; lia|]; rewrite expand_cons, app_length, repeat_length; pose proof (Forall_inv E5) as Q; cbn [fst] in Q; specialize (IH (Forall_inv_tail E5)); cbn [length]; lia|]. rewrite Xrs. cbn [length]. lia. }
    exists (rs ++ [(1%nat, last cs 0)]). split.
    + f_equal. f_equal. rewrite E3, enc_app. unfold chunks_of. rewrite Xrs. cbn [enc length]. rewrite !u32_id by lia. rewrite app_length. cbn [length].
      f_equal; [lia|]. f_equal. f_equal. lia.
    + rewrite expand_app, Xrs. split; [rewrite <- R at 2; reflexivity|]. split; [apply Forall_app; split; [exact E5|constructor; [cbn; lia|constructor]]|]. exists rs. reflexivity.
Qed.

(** ** The reader *)
Lemma stsc_read_spec : forall rs i n c fs fc t rest, 0 < i -> (0 < n)%nat -> 0 < c -> 0 <= fs -> 1 <= fc -> Forall (fun r => 0 < fst r)%nat rs -> Forall (fun r => 0 < snd r) rs ->
  fc + chunks_of ((n, c) :: rs) < 2 ^ 32 -> fs + zsum (expand ((n, c) :: rs)) < 2 ^ 32 ->
  exists ch, stsc_read (length rs) i fc c 1 fs t (enc (fc + Z.of_nat n) rs ++ rest) = Some (t ++ removelast (tab fc fs ((n, c) :: rs)), ch, rest)
    /\ ch = snd (last (tab fc fs ((n, c) :: rs)) (0, c0)).
Proof.
  induction rs as [|[n' c'] rs IH]; intros i n c fs fc t rest Hi Hn Hc Hfs Hfc F1 F2 B1 B2.
  - exists (mkC c 1 fs fc). cbn [length stsc_read enc app tab removelast last snd]. rewrite app_nil_r. auto.
  - pose proof (Forall_inv F1) as f1. pose proof (Forall_inv F2) as f2. cbn [fst snd] in f1, f2.
    assert (Q1 : chunks_of ((n, c) :: (n', c') :: rs) = Z.of_nat n + chunks_of ((n', c') :: rs)) by (unfold chunks_of; rewrite (expand_cons n c), app_length, repeat_length; lia).
    assert (Q2 : zsum (expand ((n, c) :: (n', c') :: rs)) = Z.of_nat n * c + zsum (expand ((n', c') :: rs))) by (rewrite (expand_cons n c), zsum_app, zsum_repeat; reflexivity).
    assert (Q3 : 0 <= zsum (expand ((n', c') :: rs))).
    { apply zsum_nonneg. unfold expand. apply Forall_concat. apply Forall_map. eapply Forall_impl; [|exact F2]. intros [a b] Hb. cbn [fst snd] in *. apply Forall_forall. intros x Hx. apply repeat_spec in Hx. lia. }
    assert (Q4 : 0 <= chunks_of ((n', c') :: rs)) by (unfold chunks_of; lia).
    cbn [length enc app stsc_read]. rewrite (proj2 (Z.ltb_lt 0 i)) by lia. cbn [c_spc]. rewrite (proj2 (Z.ltb_lt 0 c)) by lia. cbn [andb].
    assert (Z.of_nat n * c >= 0) by nia.
    replace (fc + Z.of_nat n - fc) with (Z.of_nat n) by lia. rewrite (u32_id (Z.of_nat n)) by lia. rewrite (u32_id (Z.of_nat n * c)) by lia. rewrite u64_id by lia.
    destruct (IH (i + 1) n' c' (fs + Z.of_nat n * c) (fc + Z.of_nat n) (rm_add (fs + Z.of_nat n * c) (mkC c 1 fs fc) t) rest ltac:(lia) ltac:(lia) ltac:(lia) ltac:(lia) ltac:(lia) (Forall_inv_tail F1) (Forall_inv_tail F2) ltac:(lia) ltac:(lia)) as (ch & E1 & E2).
    exists ch. rewrite E1. split.
    + f_equal. f_equal. f_equal. unfold rm_add. rewrite <- app_assoc. reflexivity.
    + rewrite E2. reflexivity.
Qed.
Lemma tab_last : forall rs n c fc fs, snd (last (tab fc fs (rs ++ [(n, c)])) (0, c0)) = mkC c 1 (fs + zsum (expand rs)) (fc + chunks_of rs)
  /\ removelast (tab fc fs (rs ++ [(n, c)])) = tab fc fs rs /\ tab fc fs (rs ++ [(n, c)]) = tab fc fs rs ++ [(fs + zsum (expand rs) + Z.of_nat n * c, mkC c 1 (fs + zsum (expand rs)) (fc + chunks_of rs))].
Proof.
  intros rs n c fc fs. assert (E : tab fc fs (rs ++ [(n, c)]) = tab fc fs rs ++ [(fs + zsum (expand rs) + Z.of_nat n * c, mkC c 1 (fs + zsum (expand rs)) (fc + chunks_of rs))]).
  { revert fc fs. induction rs as [|[n' c'] rs IH]; intros fc fs.
    - cbn [app tab]. unfold chunks_of, expand. cbn [map concat length zsum fold_right]. rewrite !Z.add_0_r. reflexivity.
    - cbn [app tab]. rewrite IH. f_equal. f_equal. unfold chunks_of. rewrite expand_cons, zsum_app, zsum_repeat, app_length, repeat_length. f_equal. f_equal; [lia|]. f_equal; lia. }
  rewrite E. split; [rewrite last_last; reflexivity|]. split; [apply removelast_app_one || (rewrite removelast_app by discriminate; apply app_nil_r)|reflexivity].
Qed.
Lemma parse_stsc_spec : forall rs rest c rs', rs = rs' ++ [(1%nat, c)] -> Forall (fun r => 0 < fst r)%nat rs -> Forall (fun r => 0 < snd r) rs ->
  chunks_of rs < 2 ^ 31 -> zsum (expand rs) < 2 ^ 32 ->
  parse_stsc (0 :: Z.of_nat (length rs) :: enc 1 rs ++ rest) = Some (tab 1 0 rs, rest).
Proof.
  intros rs rest c rs' E F1 F2 B1 B2. unfold parse_stsc. rewrite Nat2Z.id. destruct rs as [|[n1 c1] rs1] eqn:Er; [destruct rs'; discriminate|].
  pose proof (Forall_inv F1) as f1. pose proof (Forall_inv F2) as f2. cbn [fst snd] in f1, f2.
  cbn [length stsc_read enc app]. change (0 <? 0) with false. cbn [andb].
  destruct (stsc_read_spec rs1 (0 + 1) n1 c1 0 1 [] rest ltac:(lia) f1 f2 ltac:(lia) ltac:(lia) (Forall_inv_tail F1) (Forall_inv_tail F2) ltac:(lia) ltac:(lia)) as (ch & E1 & E2).
  rewrite E1. rewrite E in E2 |- *. pose proof (tab_last rs' 1%nat c 1 0) as (T1 & T2 & T3). rewrite T1 in E2. subst ch. cbn [c_spc c_first_sample app].
  assert (0 < c). { rewrite E in F2. apply Forall_app in F2. destruct F2 as [_ F2]. apply Forall_inv in F2. exact F2. }
  rewrite (proj2 (Z.ltb_lt 0 c)) by lia. rewrite T2, T3. unfold rm_add. f_equal. f_equal. f_equal. f_equal. f_equal.
  rewrite E, expand_app, zsum_app in B2. change (zsum (expand [(1%nat, c)])) with (c + 0) in B2.
  assert (0 <= zsum (expand rs')). { apply zsum_nonneg. unfold expand. apply Forall_concat. apply Forall_map. rewrite E in F2. apply Forall_app in F2. eapply Forall_impl; [|exact (proj1 F2)]. intros [a b] Hb. cbn [fst snd] in *. apply Forall_forall. intros x Hx. apply repeat_spec in Hx. lia. }
  rewrite u64_id by lia. lia.
Qed.

(** ** Looking a sample up *)
Lemma tab_length : forall rs fc fs, length (tab fc fs rs) = length rs.
Proof. induction rs as [|[n c] rs IH]; intros; cbn [tab length]; [reflexivity|rewrite IH; reflexivity]. Qed.
Lemma tab_nth : forall rs fc fs i d, (i < length rs)%nat -> nth i (tab fc fs rs) d = (fs + zsum (expand (firstn (S i) rs)), mkC (snd (nth i rs (0%nat, 0))) 1 (fs + zsum (expand (firstn i rs))) (fc + chunks_of (firstn i rs))).
Proof.
  induction rs as [|[n c] rs IH]; intros fc fs i d H; [cbn in H; lia|]. destruct i as [|i].
  - cbn [tab nth firstn snd]. rewrite expand_cons, zsum_app, zsum_repeat. unfold chunks_of. cbn. f_equal; [lia|]. f_equal; lia.
  - cbn [tab nth]. cbn [length] in H. rewrite IH by lia. change (firstn (S (S i)) ((n, c) :: rs)) with ((n, c) :: firstn (S i) rs). change (firstn (S i) ((n, c) :: rs)) with ((n, c) :: firstn i rs).
    unfold chunks_of. rewrite !expand_cons, !zsum_app, zsum_repeat, app_length, repeat_length. f_equal; [lia|]. f_equal; lia.
Qed.
Lemma nth_split_runs : forall (rs : list run) i, (i < length rs)%nat -> exists n c, nth i rs (0%nat, 0) = (n, c) /\ rs = firstn i rs ++ (n, c) :: skipn (S i) rs.
Proof.
  induction rs as [|[n c] rs IH]; intros i H; [cbn in H; lia|]. destruct i as [|i]; [exists n, c; split; reflexivity|].
  cbn [length] in H. destruct (IH i ltac:(lia)) as (n' & c' & E1 & E2). exists n', c'. split; [exact E1|]. change (firstn (S i) ((n, c) :: rs)) with ((n, c) :: firstn i rs). cbn [app]. f_equal. exact E2.
Qed.
Lemma firstn_S_runs : forall (rs : list run) i n c, (i < length rs)%nat -> nth i rs (0%nat, 0) = (n, c) -> firstn (S i) rs = firstn i rs ++ [(n, c)].
Proof.
  induction rs as [|r rs IH]; intros i n c H E; [cbn in H; lia|]. destruct i as [|i]; [cbn in E; rewrite E; reflexivity|].
  cbn [length nth] in *. change (firstn (S (S i)) (r :: rs)) with (r :: firstn (S i) rs). rewrite (IH i n c) by (lia || assumption). reflexivity.
Qed.
Lemma pos_expand : forall rs : list run, Forall (fun r => 0 < fst r)%nat rs -> Forall (fun r => 0 < snd r) rs -> 0 <= zsum (expand rs) /\ (rs <> [] -> 0 < zsum (expand rs)).
Proof.
  induction rs as [|[n c] rs IH]; intros F1 F2; [cbn; split; [lia|congruence]|]. rewrite expand_cons, zsum_app, zsum_repeat.
  pose proof (Forall_inv F1) as f1. pose proof (Forall_inv F2) as f2. cbn [fst snd] in *. destruct (IH (Forall_inv_tail F1) (Forall_inv_tail F2)) as [A _]. assert (0 < Z.of_nat n * c) by nia. lia.
Qed.
Lemma firstn_add : forall {A} (l : list A) a b, firstn (a + b) l = firstn a l ++ firstn b (skipn a l).
Proof. intros A l a. revert l. induction a as [|a IH]; intros l b; [reflexivity|]. destruct l as [|x l]; [cbn [Nat.add firstn skipn]; rewrite ?firstn_nil; reflexivity|]. cbn [Nat.add firstn skipn app]. rewrite IH. reflexivity. Qed.
Lemma Forall_firstn' : forall {A} (P : A -> Prop) n l, Forall P l -> Forall P (firstn n l).
Proof. induction n as [|n IH]; intros [|x l] F; cbn [firstn]; try constructor; [exact (Forall_inv F)|apply IH; exact (Forall_inv_tail F)]. Qed.
Lemma Forall_skipn' : forall {A} (P : A -> Prop) n l, Forall P l -> Forall P (skipn n l).
Proof. induction n as [|n IH]; intros [|x l] F; cbn [skipn]; try assumption. apply IH. exact (Forall_inv_tail F). Qed.
Lemma tab_increasing : forall rs fc fs, Forall (fun r => 0 < fst r)%nat rs -> Forall (fun r => 0 < snd r) rs -> increasing c0 (tab fc fs rs).
Proof.
  intros rs fc fs F1 F2 i j H. rewrite tab_length in H. unfold key. rewrite !tab_nth by lia. cbn [fst].
  replace (S j) with (S i + (j - i))%nat by lia. rewrite firstn_add. rewrite expand_app, zsum_app.
  destruct (pos_expand (firstn (j - i) (skipn (S i) rs))) as [_ P]; [apply Forall_firstn', Forall_skipn'; assumption..|].
  assert (N : firstn (j - i) (skipn (S i) rs) <> []). { intros Q. apply (f_equal (@length (nat * Z))) in Q. rewrite firstn_length, skipn_length in Q. cbn [length] in Q. lia. }
  specialize (P N). lia.
Qed.
Lemma zsum_firstn_repeat : forall c n k, (k <= n)%nat -> zsum (firstn k (repeat c n)) = Z.of_nat k * c.
Proof. intros. replace n with (k + (n - k))%nat by lia. rewrite repeat_app, firstn_app, repeat_length, Nat.sub_diag, firstn_O, app_nil_r, firstn_all2 by (rewrite repeat_length; lia). apply zsum_repeat. Qed.
(** chunk [k] (from 0) and the number of samples before it in that chunk *)
Definition locates (cs : list Z) (s : Z) (k : nat) (r : Z) : Prop := (k < length cs)%nat /\ s = zsum (firstn k cs) + r /\ 0 <= r < nth k cs 0.
Lemma lookup_spec : forall rs p s, Forall (fun r => 0 < fst r)%nat rs -> Forall (fun r => 0 < snd r) rs -> chunks_of rs < 2 ^ 31 -> zsum (expand rs) < 2 ^ 32 ->
  p_stsc p = tab 1 0 rs -> 0 <= s < zsum (expand rs) ->
  exists k r, chunk_number p s = Some (Z.of_nat k + 1, r, 1) /\ locates (expand rs) s k r.
Proof.
  intros rs p s F1 F2 B1 B2 Ep Hs. unfold chunk_number. rewrite Ep.
  assert (N : rs <> []) by (intros ->; cbn in Hs; lia).
  destruct (rm_get_ok c0 (tab 1 0 rs) s (tab_increasing rs 1 0 F1 F2)) as (ret & i & E & Hi & C & C1 & C2); [destruct rs as [|[n c] rs]; [congruence|discriminate]|].
  rewrite E. rewrite tab_length in Hi. rewrite tab_length in C2.
  assert (K : forall j, (j < length rs)%nat -> key c0 (tab 1 0 rs) j = zsum (expand (firstn (S j) rs))) by (intros j Hj; unfold key; rewrite tab_nth by lia; reflexivity).
  assert (R1 : ret <> 1). { intros ->. destruct C2 as [C2 _]. specialize (C2 eq_refl). assert (0 < length rs)%nat by lia. rewrite K in C2 by lia. replace (S (length rs - 1)) with (length rs) in C2 by lia. rewrite firstn_all in C2. lia. }
  destruct C as [[C _]|(_ & C3 & C4)]; [congruence|]. rewrite K in C3 by lia.
  destruct (nth_split_runs rs i Hi) as (n & c & En & Es). pose proof (firstn_S_runs rs i n c Hi En) as Ef.
  unfold val. rewrite tab_nth by lia. cbn [snd c_first_sample c_spc c_sdi c_first_chunk]. rewrite En. cbn [snd]. rewrite Z.add_0_l.
  assert (H1 : zsum (expand (firstn i rs)) <= s). { destruct i as [|i]; [cbn; lia|]. specialize (C4 i ltac:(lia)). rewrite K in C4 by lia. lia. }
  rewrite Ef, expand_app, zsum_app in C3. change (expand [(n, c)]) with (repeat c n ++ []) in C3. rewrite app_nil_r, zsum_repeat in C3.
  pose proof F1 as F1'. rewrite Es in F1'. apply Forall_app in F1'. destruct F1' as [F1a F1b]. pose proof (Forall_inv F1b) as f1. cbn [fst] in f1.
  pose proof F2 as F2'. rewrite Es in F2'. apply Forall_app in F2'. destruct F2' as [F2a F2b]. pose proof (Forall_inv F2b) as f2. cbn [snd] in f2.
  set (q := s - zsum (expand (firstn i rs))) in *. assert (0 <= q <= Z.of_nat n * c) by lia. assert (q < 2 ^ 32). { destruct (pos_expand _ F1a F2a) as [Q _]. lia. }
  rewrite (u64_id q) by lia.
  assert (X : expand rs = expand (firstn i rs) ++ repeat c n ++ expand (skipn (S i) rs)). { rewrite Es at 1. rewrite expand_app, expand_cons. reflexivity. }
  assert (D : q = c * (q / c) + q mod c) by (apply Z.div_mod; lia). pose proof (Z.mod_pos_bound q c f2) as M. assert (0 <= q / c) by (apply Z.div_pos; lia).
  assert (q / c <= Z.of_nat n). { assert (q / c < Z.of_nat n + 1) by (apply Z.div_lt_upper_bound; nia). lia. }
  exists (length (expand (firstn i rs)) + Z.to_nat (q / c))%nat, (q mod c).
  assert (Lq : (length (expand (firstn i rs)) + n <= length (expand rs))%nat) by (rewrite X, !app_length, repeat_length; lia).
  unfold chunks_of in *. split; [rewrite u64_id by lia; f_equal; f_equal; f_equal; lia|].
  unfold locates. destruct (Z.eq_dec (q / c) (Z.of_nat n)) as [Eq|Nq].
  - (* the first sample of the next run *)
    assert (q mod c = 0) by nia. assert (q = Z.of_nat n * c) by nia.
    destruct (skipn (S i) rs) as [|[n' c'] rs'] eqn:Esk.
    { exfalso. change (expand []) with (@nil Z) in X. rewrite app_nil_r in X. rewrite X, zsum_app, zsum_repeat in Hs. lia. }
    pose proof (Forall_inv (Forall_inv_tail F1b)) as f1'. pose proof (Forall_inv (Forall_inv_tail F2b)) as f2'. cbn [fst snd] in f1', f2'.
    destruct n' as [|n']; [lia|]. rewrite Eq, Nat2Z.id. rewrite X, expand_cons. cbn [repeat]. split; [rewrite !app_length, repeat_length; cbn [app length]; lia|].
    replace (length (expand (firstn i rs)) + n)%nat with (length (expand (firstn i rs) ++ repeat c n)) by (rewrite app_length, repeat_length; reflexivity).
    rewrite app_assoc. split.
    + rewrite firstn_app, firstn_all, Nat.sub_diag, firstn_O, app_nil_r, zsum_app, zsum_repeat. lia.
    + rewrite app_nth2, Nat.sub_diag by lia. cbn [app nth]. lia.
  - split; [lia|]. rewrite X. split.
    + rewrite firstn_app. rewrite firstn_all2 by lia. replace (length (expand (firstn i rs)) + Z.to_nat (q / c) - length (expand (firstn i rs)))%nat with (Z.to_nat (q / c)) by lia.
      rewrite firstn_app, repeat_length. replace (Z.to_nat (q / c) - n)%nat with 0%nat by lia. rewrite firstn_O, app_nil_r, zsum_app, zsum_firstn_repeat by lia. rewrite Z2Nat.id by lia. nia.
    + rewrite app_nth2 by lia. replace (length (expand (firstn i rs)) + Z.to_nat (q / c) - length (expand (firstn i rs)))%nat with (Z.to_nat (q / c)) by lia.
      rewrite app_nth1 by (rewrite repeat_length; lia). rewrite (nth_indep _ 0 c) by (rewrite repeat_length; lia). rewrite nth_repeat. lia.
Qed.

(** ** The chunks written *)
Fixpoint contig (p : Z) (g : list (Z * Z)) : Prop := match g with [] => True | (q, n) :: g => q = p /\ contig (p + n) g end.
Definition head_pos (g : list (Z * Z)) : Z := match g with (p, _) :: _ => p | [] => 0 end.
Definition group_ok (g : list (Z * Z)) : Prop := g <> [] /\ contig (head_pos g) g.
Definition gend (g : list (Z * Z)) : Z := head_pos g + zsum (map snd g).
Definition ch_of (g : list (Z * Z)) : Z * Z := (head_pos g, Z.of_nat (length g)).
Lemma contig_snoc : forall g p n, contig p g -> contig p (g ++ [(p + zsum (map snd g), n)]).
Proof.
  induction g as [|[q m] g IH]; intros p n H; cbn [contig app] in *; [split; [cbn; lia|exact I]|]. destruct H as [-> H]. split; [reflexivity|].
  replace (p + zsum (map snd ((p, m) :: g))) with (p + m + zsum (map snd g)) by (cbn [map snd]; rewrite zsum_cons; lia). apply IH. exact H.
Qed.
Definition winv (l : list (Z * Z)) (w : wstate) : Prop := exists gs g, group_ok g /\ Forall group_ok gs /\ l = concat gs ++ g /\ w_chunks w = map ch_of gs
  /\ w_start w = head_pos g /\ w_in w = Z.of_nat (length g) /\ w_end w = gend g /\ 0 <= gend g < U64MAX /\ w_flushed w = false /\ w_sizes w = map snd l
  /\ (w_has_size w = false <-> all_same_size l).
Lemma all_same_snoc : forall l x, l <> [] -> (all_same_size (l ++ [x]) <-> all_same_size l /\ snd x = last (map snd l) 0).
Proof.
  intros l x N. split.
  - intros H. split; [intros a b Ha Hb; apply H; apply in_or_app; left; assumption|].
    rewrite (app_removelast_last (0, 0) N), map_app. cbn [map]. rewrite last_last. apply H; apply in_or_app; [right; left; reflexivity|]. left. rewrite (app_removelast_last (0, 0) N) at 2. apply in_or_app. right. left. reflexivity.
  - intros [H E]. assert (L : In (last l (0, 0)) l). { rewrite (app_removelast_last (0, 0) N) at 2. apply in_or_app. right. left. reflexivity. }
    assert (E' : snd x = snd (last l (0, 0))). { rewrite E. rewrite (app_removelast_last (0, 0) N) at 1. rewrite map_app. cbn [map]. apply last_last. }
    intros a b Ha Hb. apply in_app_or in Ha. apply in_app_or in Hb. destruct Ha as [Ha|[<-|[]]], Hb as [Hb|[<-|[]]]; try reflexivity.
    + apply H; assumption.
    + rewrite E'. apply H; assumption.
    + rewrite E'. apply H; assumption.
Qed.
Lemma first_step : forall p n, 0 <= p -> 0 <= n -> p + n < U64MAX -> winv [(p, n)] (sample_written w_init p n).
Proof.
  intros p n P N B. unfold sample_written, w_init. cbn [w_end w_start w_in w_chunks w_sizes w_has_size w_flushed]. rewrite Z.eqb_refl. cbn [w_end w_start w_in w_chunks w_sizes w_has_size w_flushed]. rewrite Z.eqb_refl.
  cbn [w_end w_start w_in w_chunks w_sizes w_has_size w_flushed length Nat.ltb Nat.leb negb andb app].
  exists [], [(p, n)]. unfold gend. cbn [head_pos map snd]. rewrite zsum_cons. change (zsum []) with 0. rewrite Z.add_0_r.
  cbn [w_end w_start w_in w_chunks w_sizes w_has_size w_flushed concat app map]. unfold U64MAX in *. rewrite u64_id by lia.
  split; [split; [discriminate|cbn; auto]|]. repeat split; auto; try lia. intros _ a b [<-|[]] [<-|[]]. reflexivity.
Qed.
Lemma next_step : forall l w p n, winv l w -> 0 <= p -> 0 <= n -> p + n < U64MAX -> winv (l ++ [(p, n)]) (sample_written w p n).
Proof.
  intros l w p n (gs & g & [G1 G2] & G3 & G4 & G5 & G6 & G7 & G8 & G9 & G10 & G11 & G12) P N B.
  assert (Nl : l <> []) by (rewrite G4; destruct (concat gs), g; discriminate || congruence).
  assert (Hs : forall w1, w_sizes w1 = w_sizes w -> w_has_size w1 = w_has_size w ->
    ((if negb (w_has_size w1) && (0 <? length (w_sizes w1))%nat then negb (n =? last (w_sizes w1) 0) else w_has_size w1) = false <-> all_same_size (l ++ [(p, n)]))).
  { intros w1 -> ->. rewrite G11, map_length. rewrite (proj2 (Nat.ltb_lt 0 (length l))) by (destruct l; [congruence|cbn; lia]). rewrite (all_same_snoc l (p, n) Nl). cbn [snd].
    destruct (w_has_size w) eqn:E; cbn [negb andb].
    - split; [discriminate|]. intros [A _]. apply G12 in A. discriminate.
    - rewrite negb_false_iff, Z.eqb_eq. split; [intros X; split; [apply G12; reflexivity|exact X]|intros [_ X]; exact X]. }
  unfold sample_written. rewrite G8. rewrite (proj2 (Z.eqb_neq (gend g) U64MAX)) by lia. rewrite G8.
  assert (U : u64 (p + n) = p + n) by (apply u64_id; unfold U64MAX in *; lia).
  destruct (Z.eqb_spec (gend g) p) as [E|E].
  - exists gs, (g ++ [(p, n)]). cbn [w_end w_start w_in w_chunks w_sizes w_has_size w_flushed].
    assert (Hd : head_pos (g ++ [(p, n)]) = head_pos g) by (destruct g as [|[q m] g]; [congruence|reflexivity]).
    assert (Ge : gend (g ++ [(p, n)]) = p + n) by (unfold gend in *; rewrite Hd, map_app, zsum_app; cbn [map snd]; rewrite zsum_cons; change (zsum []) with 0; lia).
    split; [split; [destruct g; discriminate|rewrite Hd, <- E; apply contig_snoc; exact G2]|]. split; [exact G3|]. split; [rewrite G4, app_assoc; reflexivity|].
    split; [exact G5|]. rewrite Hd, Ge, U. split; [exact G6|]. split; [rewrite G7, app_length; cbn; lia|]. split; [reflexivity|]. split; [lia|]. split; [reflexivity|].
    split; [rewrite G11, map_app; reflexivity|]. apply (Hs (mkW (w_end w) (w_start w) (w_in w + 1) (w_chunks w) (w_sizes w) (w_has_size w) (w_flushed w)) eq_refl eq_refl).
  - exists (gs ++ [g]), [(p, n)]. unfold register_chunk. cbn [w_end w_start w_in w_chunks w_sizes w_has_size w_flushed]. unfold gend at 1. cbn [head_pos map snd length]. rewrite zsum_cons. change (zsum []) with 0. rewrite Z.add_0_r, U.
    split; [split; [discriminate|cbn; auto]|]. split; [apply Forall_app; split; [exact G3|constructor; [split; assumption|constructor]]|].
    split; [rewrite concat_app; cbn [concat]; rewrite app_nil_r, G4; reflexivity|]. split; [rewrite map_app, G5, G6, G7; reflexivity|].
    split; [reflexivity|]. split; [reflexivity|]. split; [reflexivity|]. split; [unfold gend; cbn [head_pos map snd]; rewrite zsum_cons; change (zsum []) with 0; lia|]. split; [reflexivity|].
    split; [rewrite G11, map_app; reflexivity|]. apply (Hs (mkW (w_end w) p 1 (w_chunks w) (w_sizes w) (w_has_size w) true) eq_refl eq_refl).
Qed.
Lemma all_steps : forall l, l <> [] -> Forall (fits 0) l -> winv l (fold_left (fun w s => sample_written w (fst s) (snd s)) l w_init).
Proof.
  intros l. induction l as [|[p n] l IH] using rev_ind; intros N F; [congruence|]. apply Forall_app in F. destruct F as [F1 F2]. apply Forall_inv in F2. destruct F2 as (A & B & C). cbn [fst snd] in *.
  rewrite fold_left_app. cbn [fold_left fst snd]. destruct l as [|x l]; [apply first_step; unfold U64MAX; lia|]. apply next_step; [apply IH; [discriminate|exact F1]|unfold U64MAX; lia..].
Qed.
Lemma write_all_spec : forall l, l <> [] -> Forall (fits 0) l -> exists gs, Forall group_ok gs /\ l = concat gs /\ gs <> [] /\ w_chunks (write_all l) = map ch_of gs /\ w_sizes (write_all l) = map snd l
  /\ (w_has_size (write_all l) = false <-> all_same_size l).
Proof.
  intros l N F. destruct (all_steps l N F) as (gs & g & G1 & G3 & G4 & G5 & G6 & G7 & G8 & G9 & G10 & G11 & G12). unfold write_all, flush. rewrite G10.
  exists (gs ++ [g]). split; [apply Forall_app; split; [exact G3|constructor; [exact G1|constructor]]|]. split; [rewrite concat_app; cbn [concat]; rewrite app_nil_r; exact G4|]. split; [destruct gs; discriminate|].
  unfold register_chunk. cbn [w_chunks w_sizes w_has_size]. split; [rewrite map_app, G5, G6, G7; reflexivity|]. split; assumption.
Qed.

(** ** Everything together *)
Lemma take_app : forall a b, take (Z.of_nat (length a)) (a ++ b) = Some (a, b).
Proof.
  intros a b. unfold take. rewrite app_length. destruct (Z.ltb_spec (Z.of_nat (length a + length b)) (Z.of_nat (length a))); [lia|]. rewrite Nat2Z.id.
  rewrite firstn_app, skipn_app, firstn_all, skipn_all, Nat.sub_diag, firstn_O, skipn_O, app_nil_r. reflexivity.
Qed.
Lemma counts_sum : forall gs, zsum (map snd (map ch_of gs)) = Z.of_nat (length (concat gs)).
Proof. induction gs as [|g gs IH]; [reflexivity|]. cbn [map concat]. rewrite zsum_cons, IH, app_length. cbn [ch_of snd]. lia. Qed.
Lemma groups_le : forall gs, Forall group_ok gs -> (length gs <= length (concat gs))%nat.
Proof. induction 1 as [|g gs [H _] F IH]; [cbn; lia|]. cbn [concat length]. rewrite app_length. destruct g; [congruence|]. cbn [length]. lia. Qed.
Lemma firstn_map_Z : forall {A B} (f : A -> B) n l, firstn n (map f l) = map f (firstn n l).
Proof. intros A B f n. induction n as [|n IH]; intros [|x l]; cbn [firstn map]; try reflexivity. rewrite IH. reflexivity. Qed.
Lemma group_pos : forall g p r, contig p g -> (r < length g)%nat -> fst (nth r g (0, 0)) = p + zsum (map snd (firstn r g)).
Proof.
  induction g as [|[q n] g IH]; intros p r C H; [cbn in H; lia|]. cbn [contig length] in *. destruct C as [-> C]. destruct r as [|r]; [cbn; lia|].
  cbn [nth]. rewrite (IH (p + n) r C) by lia. cbn [firstn map snd]. rewrite zsum_cons. lia.
Qed.
Lemma concat_locate : forall (gs : list (list (Z * Z))) k r d, (k < length gs)%nat -> (r < length (nth k gs []))%nat ->
  nth (length (concat (firstn k gs)) + r) (concat gs) d = nth r (nth k gs []) d.
Proof.
  induction gs as [|g gs IH]; intros k r d H1 H2; [cbn in H1; lia|]. destruct k as [|k]; cbn [firstn concat nth length Nat.add] in *; [apply app_nth1; exact H2|].
  rewrite app_length, app_nth2 by lia. replace (length g + length (concat (firstn k gs)) + r - length g)%nat with (length (concat (firstn k gs)) + r)%nat by lia. apply IH; [lia|exact H2].
Qed.
Lemma sizes_ok : forall p (l : list (Z * Z)) i, p_size p = 0 -> p_sizes p = map snd l -> (i < length l)%nat -> sample_size p (Z.of_nat i) = Some (snd (nth i l (0, 0))).
Proof.
  intros p l i E1 E2 H. unfold sample_size. rewrite E1. cbn [Z.eqb]. rewrite (proj2 (Z.ltb_ge (Z.of_nat i) 0)) by lia. rewrite Nat2Z.id, E2.
  rewrite nth_error_map, (nth_error_nth' l (0, 0) H). reflexivity.
Qed.
Lemma add_sizes_ok : forall r p (l : list (Z * Z)) i off, p_size p = 0 -> p_sizes p = map snd l -> (i + r <= length l)%nat -> Forall (fun s => 0 <= snd s) l -> 0 <= off ->
  off + zsum (map snd (firstn r (skipn i l))) < 2 ^ 64 -> add_sizes p (Z.of_nat i) r off = Some (off + zsum (map snd (firstn r (skipn i l)))).
Proof.
  induction r as [|r IH]; intros p l i off E1 E2 H F O B; [cbn; f_equal; lia|]. cbn [add_sizes]. rewrite (sizes_ok p l i E1 E2) by lia.
  assert (Sk : skipn i l = nth i l (0, 0) :: skipn (S i) l).
  { clear - H. revert l H. induction i as [|i IH]; intros [|x l] H; cbn [length] in H; try lia; [reflexivity|]. cbn [nth]. change (skipn (S i) (x :: l)) with (skipn i l). rewrite IH by lia. reflexivity. }
  rewrite Sk in B |- *. cbn [firstn map] in B |- *. rewrite zsum_cons in B |- *.
  assert (0 <= zsum (map snd (firstn r (skipn (S i) l)))). { apply zsum_nonneg, Forall_map, Forall_firstn', Forall_skipn'. exact F. }
  assert (0 <= snd (nth i l (0, 0))). { rewrite Forall_forall in F. apply F. apply nth_In. lia. }
  rewrite u64_id by lia. replace (Z.of_nat i + 1) with (Z.of_nat (S i)) by lia. rewrite (IH p l (S i) _ E1 E2) by (lia || assumption). f_equal. lia.
Qed.
Lemma pb_stsc : forall f p y ws, parse_boxes (S f) p (y :: box_stsc :: ws) = match parse_stsc ws with Some (t, ws) => parse_boxes f (mkP t (p_size p) (p_count p) (p_sizes p) (p_chunks p)) ws | None => None end.
Proof. reflexivity. Qed.
Lemma pb_stsz : forall f p y ws, parse_boxes (S f) p (y :: box_stsz :: ws) = match parse_stsz ws with Some (sz, n, l, ws) => parse_boxes f (mkP (p_stsc p) sz n l (p_chunks p)) ws | None => None end.
Proof. reflexivity. Qed.
Lemma pb_stco : forall f p y ws, parse_boxes (S f) p (y :: box_stco :: ws) = match parse_stco ws with Some (l, ws) => parse_boxes f (mkP (p_stsc p) (p_size p) (p_count p) (p_sizes p) l) ws | None => None end.
Proof. reflexivity. Qed.
Lemma pb_nil : forall f p, parse_boxes (S f) p [] = Some p.
Proof. reflexivity. Qed.
Lemma tables_read : forall b mdat l, l <> [] -> Forall (fits 0) l -> Forall (fits mdat) l -> 0 <= mdat -> Z.of_nat (length l) < 2 ^ 31 ->
  exists gs ws rs, l = concat gs /\ Forall group_ok gs /\ expand rs = map (fun g => Z.of_nat (length g)) gs
    /\ Forall (fun r => 0 < fst r)%nat rs /\ Forall (fun r => 0 < snd r) rs /\ write_tables b mdat (write_all l) = Some ws
    /\ (~ all_same_size l -> parse_tables ws = Some (mkP (tab 1 0 rs) 0 (Z.of_nat (length l)) (map snd l) (map (fun g => head_pos g + mdat) gs))).
Proof.
  intros b mdat l N F0 Fm M B. destruct (write_all_spec l N F0) as (gs & G1 & G2 & G3 & G4 & G5 & G6).
  pose proof (groups_le gs G1) as Lg. rewrite <- G2 in Lg.
  assert (Fc : Forall (fun c => 0 < c < 2 ^ 32) (map snd (map ch_of gs))).
  { rewrite map_map. apply Forall_map. cbn [ch_of snd]. apply Forall_forall. intros g Hg. rewrite Forall_forall in G1. destruct (G1 g Hg) as [A _]. split; [destruct g; [congruence|cbn; lia]|].
    assert (length g <= length l)%nat. { rewrite G2. apply in_split in Hg. destruct Hg as (a & c & ->). rewrite concat_app. cbn [concat]. rewrite !app_length. lia. } lia. }
  assert (Nc : map snd (map ch_of gs) <> []) by (destruct gs; [congruence|discriminate]).
  destruct (write_stsc_spec (map snd (map ch_of gs)) b Nc Fc ltac:(rewrite !map_length; lia)) as (rs & R1 & R2 & R3 & rs' & R4).
  assert (R5 : Forall (fun r => 0 < snd r) rs).
  { apply Forall_forall. intros [n c] Hr. cbn [snd]. pose proof (proj1 (Forall_forall _ _) R3 _ Hr) as Hn. cbn [fst] in Hn. rewrite <- R2 in Fc. apply in_split in Hr. destruct Hr as (a & c' & E). rewrite E, expand_app, expand_cons in Fc.
    apply Forall_app in Fc. destruct Fc as [_ Fc]. destruct n; [lia|]. cbn [repeat app] in Fc. apply Forall_inv in Fc. lia. }
  assert (R2' : expand rs = map (fun g : list (Z * Z) => Z.of_nat (length g)) gs) by (rewrite R2, map_map; reflexivity).
  exists gs. unfold write_tables. rewrite G4, R1. eexists. exists rs. split; [exact G2|]. split; [exact G1|]. split; [exact R2'|]. split; [exact R3|]. split; [exact R5|]. split; [reflexivity|].
  intros NS. assert (Hh : w_has_size (write_all l) = true) by (destruct (w_has_size (write_all l)) eqn:E; [reflexivity|]; exfalso; apply NS, G6; reflexivity).
  unfold parse_tables.
  assert (Cr : chunks_of rs < 2 ^ 31) by (unfold chunks_of; rewrite R2', map_length; lia).
  assert (Zr : zsum (expand rs) < 2 ^ 32) by (rewrite R2, counts_sum, <- G2; lia).
  unfold fullbox at 2. cbn [app]. rewrite pb_stsc.
  rewrite (parse_stsc_spec rs _ _ rs' R4 R3 R5 Cr Zr).
  assert (Hf : exists f', length ((fullbox box_stsc (Z.of_nat (length rs) :: enc 1 rs)) ++ write_stsz (write_all l) ++ write_stco mdat (write_all l)) = S (S (S f'))).
  { unfold fullbox. cbn [length app]. eexists. reflexivity. }
  destruct Hf as [f' ->]. unfold write_stsz, fullbox at 1. rewrite Hh, G5. cbn [app]. rewrite pb_stsz. unfold parse_stsz. cbn [Z.eqb].
  assert (Es : map u32 (map snd l) = map snd l). { rewrite map_map. apply map_ext_in. intros [q n] Hin. cbn [snd]. rewrite Forall_forall in F0. destruct (F0 _ Hin) as (A1 & A2 & A3). cbn [fst snd] in *. apply u32_id. lia. }
  rewrite Es. rewrite map_length, u32_id by lia. rewrite <- (map_length snd l) at 1. rewrite take_app.
  unfold write_stco, fullbox. rewrite pb_stco. unfold parse_stco.
  rewrite G4, map_map, !map_length, u32_id by lia.
  rewrite <- (map_length (fun x => u32 (fst (ch_of x) + mdat)) gs) at 1. rewrite <- (app_nil_r (map (fun x => u32 (fst (ch_of x) + mdat)) gs)) at 2. rewrite take_app, pb_nil.
  cbn [p_stsc p_size p_count p_sizes p_chunks p_init]. f_equal. f_equal. apply map_ext_in. intros g Hg. cbn [ch_of fst]. apply u32_id.
  rewrite Forall_forall in G1. destruct (G1 g Hg) as [Ng _]. destruct g as [|[q n] g]; [congruence|]. cbn [head_pos].
  assert (Hin : In (q, n) l). { rewrite G2. apply in_concat. exists ((q, n) :: g). split; [exact Hg|left; reflexivity]. }
  rewrite Forall_forall in Fm. destruct (Fm _ Hin) as (A1 & A2 & A3). cbn [fst snd] in *. lia.
Qed.
Lemma tables_ok : forall b mdat l, Forall (fits mdat) l -> 0 <= mdat -> Z.of_nat (length l) < 2 ^ 31 -> ~ all_same_size l ->
  exists ws p, write_tables b mdat (write_all l) = Some ws /\ parse_tables ws = Some p /\ p_count p = Z.of_nat (length l)
    /\ forall i, (i < length l)%nat -> sample_offset p (Z.of_nat i) = Some (fst (nth i l (0, 0)) + mdat) /\ sample_size p (Z.of_nat i) = Some (snd (nth i l (0, 0))).
Proof.
  intros b mdat l Fm M B NS. assert (N : l <> []) by (intros ->; apply NS; intros ? ? []).
  assert (F0 : Forall (fits 0) l) by (eapply Forall_impl; [|exact Fm]; intros [q n] (A1 & A2 & A3); unfold fits; cbn [fst snd] in *; lia).
  destruct (tables_read b mdat l N F0 Fm M B) as (gs & ws & rs & G1 & G2 & R1 & R2 & R3 & W & P). specialize (P NS).
  eexists ws, _. split; [exact W|]. split; [exact P|]. split; [reflexivity|]. intros i Hi. set (p := mkP _ _ _ _ _).
  assert (E1 : p_size p = 0) by reflexivity. assert (E2 : p_sizes p = map snd l) by reflexivity.
  split; [|apply sizes_ok; assumption].
  assert (Cs : map (fun g : list (Z * Z) => Z.of_nat (length g)) gs = map snd (map ch_of gs)) by (rewrite map_map; reflexivity).
  destruct (lookup_spec rs p (Z.of_nat i) R2 R3) as (k & r & C & L1 & L2 & L3); [| |reflexivity|rewrite R1, Cs, counts_sum, <- G1; lia|].
  { unfold chunks_of. rewrite R1, map_length. pose proof (groups_le gs G2). rewrite <- G1 in *. lia. }
  { rewrite R1, Cs, counts_sum, <- G1. lia. }
  rewrite R1, map_length in L1. rewrite R1 in L2, L3. rewrite firstn_map_Z, Cs in L2 || rewrite firstn_map_Z in L2.
  assert (Cs2 : map (fun g : list (Z * Z) => Z.of_nat (length g)) (firstn k gs) = map snd (map ch_of (firstn k gs))) by (rewrite map_map; reflexivity).
  rewrite Cs2, counts_sum in L2. rewrite (nth_indep _ 0 (Z.of_nat (length (@nil (Z * Z))))) in L3 by (rewrite map_length; exact L1). rewrite (map_nth (fun g : list (Z * Z) => Z.of_nat (length g))) in L3.
  pose proof (groups_le gs G2) as Lg. rewrite <- G1 in Lg.
  unfold sample_offset. rewrite C. unfold chunk_offset. rewrite u32_id by lia. rewrite (proj2 (Z.leb_gt (Z.of_nat k + 1) 0)) by lia. replace (Z.to_nat (Z.of_nat k + 1 - 1)) with k by lia.
  cbn [p p_chunks]. rewrite nth_error_map, (nth_error_nth' gs [] L1). cbn [option_map].
  set (g := nth k gs []) in *. assert (Gok : group_ok g) by (rewrite Forall_forall in G2; apply G2; apply nth_In; exact L1).
  replace (Z.of_nat i - r) with (Z.of_nat (length (concat (firstn k gs)))) by lia.
  set (a := length (concat (firstn k gs))) in *. assert (Hr : (Z.to_nat r < length g)%nat) by lia. assert (Ei : i = (a + Z.to_nat r)%nat) by lia.
  assert (Sp : l = concat (firstn k gs) ++ g ++ concat (skipn (S k) gs)).
  { rewrite G1. rewrite <- (firstn_skipn k gs) at 1. rewrite concat_app. f_equal. rewrite <- (firstn_skipn 1 (skipn k gs)). rewrite concat_app. f_equal.
    - unfold g. clear - L1. revert gs L1. induction k as [|k IH]; intros [|x gs] H; cbn [length] in H; try lia; [cbn; apply app_nil_r|]. cbn [nth]. change (skipn (S k) (x :: gs)) with (skipn k gs). apply IH. lia.
    - f_equal. clear. revert gs. induction k as [|k IH]; intros [|x gs]; try reflexivity. change (skipn (S k) (x :: gs)) with (skipn k gs). rewrite IH. reflexivity. }
  assert (Sk : firstn (Z.to_nat r) (skipn a l) = firstn (Z.to_nat r) g).
  { rewrite Sp. unfold a. rewrite skipn_app, skipn_all, Nat.sub_diag, skipn_O. cbn [app]. rewrite firstn_app. replace (Z.to_nat r - length g)%nat with 0%nat by lia. rewrite firstn_O, app_nil_r. reflexivity. }
  assert (Fp : fst (nth i l (0, 0)) = head_pos g + zsum (map snd (firstn (Z.to_nat r) g))).
  { rewrite Ei, G1. unfold a. rewrite (concat_locate gs k (Z.to_nat r) (0, 0) L1 Hr). apply group_pos; [apply Gok|exact Hr]. }
  assert (Fi : fits mdat (nth i l (0, 0))) by (rewrite Forall_forall in Fm; apply Fm; apply nth_In; exact Hi). destruct Fi as (A1 & A2 & A3).
  assert (Hh : 0 <= head_pos g). { destruct Gok as [Ng _]. assert (Hg : In g gs) by (apply nth_In; exact L1). destruct g as [|[q n] g']; [congruence|]. cbn [head_pos].
    assert (Hin : In (q, n) l). { rewrite G1. apply in_concat. exists ((q, n) :: g'). split; [exact Hg|left; reflexivity]. } rewrite Forall_forall in Fm. apply (Fm _ Hin). }
  rewrite (add_sizes_ok (Z.to_nat r) p l a (head_pos g + mdat) E1 E2).
  - rewrite Sk, Fp. f_equal. lia.
  - lia.
  - eapply Forall_impl; [|exact Fm]. intros x Hx. apply Hx.
  - lia.
  - rewrite Sk. lia.
Qed.
Lemma same_size_table : forall l rest, l <> [] -> Forall (fits 0) l -> Z.of_nat (length l) < 2 ^ 31 -> all_same_size l -> (length l <= length rest)%nat ->
  exists sz, write_stsz (write_all l) = sz :: box_stsz :: [0; 0; Z.of_nat (length l)] /\ parse_stsz (skipn 2 (write_stsz (write_all l) ++ rest)) = Some (0, Z.of_nat (length l), firstn (length l) rest, skipn (length l) rest).
Proof.
  intros l rest N F B S L. destruct (write_all_spec l N F) as (gs & _ & _ & _ & _ & G5 & G6). apply G6 in S. unfold write_stsz. rewrite S, G5, map_length, u32_id by lia.
  unfold fullbox. eexists. split; [reflexivity|]. cbn [app skipn]. unfold parse_stsz. cbn [Z.eqb]. unfold take. rewrite (proj2 (Z.ltb_ge (Z.of_nat (length rest)) (Z.of_nat (length l)))) by lia. rewrite Nat2Z.id. reflexivity.
Qed.
Lemma single_sample : forall b mdat s, fits 0 s -> fits mdat s -> 0 <= mdat -> exists ws p, write_tables b mdat (write_all [s]) = Some ws /\ parse_tables ws = Some p /\ sample_size p 0 = Some 20 /\ sample_offset p 0 = None.
Proof.
  intros b mdat [q n] (A1 & A2 & A3) (B1 & B2 & B3) M. cbn [fst snd] in *.
  assert (E : write_all [(q, n)] = mkW (q + n) q 1 [(q, 1)] [n] false true).
  { unfold write_all. cbn [fold_left fst snd]. unfold sample_written, w_init. cbn [w_end w_start w_in w_chunks w_sizes w_has_size w_flushed]. rewrite Z.eqb_refl. cbn [w_end]. rewrite Z.eqb_refl. cbn [w_end w_start w_in w_chunks w_sizes w_has_size w_flushed length Nat.ltb Nat.leb negb andb app]. rewrite u64_id by lia. reflexivity. }
  rewrite E. eexists. eexists. split; [reflexivity|]. split; [vm_compute; reflexivity|]. split; vm_compute; reflexivity.
Qed.
