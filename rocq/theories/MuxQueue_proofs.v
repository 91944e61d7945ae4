From Coq Require Import ZifyNat Permutation Wf_nat.
From Verif Require Import Util SampleTab_model SampleTab_proofs MuxQueue_model.
Local Open Scope Z_scope.
(** ** Writing a queue *)
Lemma write_queue_spec : forall uc mx q w file, exists a b ws, write_queue uc mx q w file = (b, w ++ ws, file ++ concat (map (fun x => s_body (fst x)) ws))
  /\ q = a ++ b /\ map fst ws = a /\ laid_out (Z.of_nat (length file)) ws /\ Forall (fun s => early uc mx s = true) a /\ (forall s r, b = s :: r -> early uc mx s = false).
Proof.
  induction q as [|s q IH]; intros w file; [exists [], [], []; cbn; rewrite !app_nil_r; repeat split; [constructor|discriminate]|]. cbn [write_queue]. destruct (early uc mx s) eqn:E.
  - destruct (IH (w ++ [(s, Z.of_nat (length file))]) (file ++ s_body s)) as (a & b & ws & E1 & E2 & E3 & E4 & E5 & E6). exists (s :: a), b, ((s, Z.of_nat (length file)) :: ws). rewrite E1. cbn [map concat fst laid_out]. split; [rewrite <- !app_assoc; reflexivity|]. split; [rewrite E2; reflexivity|]. split; [rewrite E3; reflexivity|].
    split; [split; [reflexivity|]; rewrite app_length, Nat2Z.inj_add in E4; exact E4|]. split; [constructor; assumption|exact E6].
  - exists [], (s :: q), []. cbn. rewrite !app_nil_r. repeat split; [constructor|]. intros s' r Q. injection Q as <- _. exact E.
Qed.
Definition body_of (x : sample * Z) : list Z := s_body (fst x).
(** one stream, before and after: samples move from the queue to the file *)
Definition moved (a b : stream) (ws : list (sample * Z)) : Prop := written b = written a ++ ws /\ pending a = map fst ws ++ pending b.
Lemma write_samples_spec : forall uc mx st file, exists st' file' wrote so ws, write_samples uc mx st file = (st', file', wrote, so) /\ moved st st' ws /\ file' = file ++ concat (map body_of ws) /\ laid_out (Z.of_nat (length file)) ws
  /\ (wrote = true <-> ws <> []) /\ (wrote = false -> ws = [] /\ st' = st /\ file' = file /\ (so = false <-> pending st = []) /\ forall s r, pending st = s :: r -> early uc mx s = false).
Proof.
  intros uc mx [q w] file. unfold write_samples. cbn [pending written]. destruct (write_queue_spec uc mx q w file) as (a & b & ws & E1 & E2 & E3 & E4 & E5 & E6). rewrite E1. eexists _, _, _, _, ws. split; [reflexivity|]. unfold moved. cbn [pending written]. split; [split; [reflexivity|rewrite E3; exact E2]|]. split; [reflexivity|]. split; [exact E4|].
  assert (W : negb (length (w ++ ws) =? length w)%nat = true <-> ws <> []). { rewrite app_length, negb_true_iff, Nat.eqb_neq. destruct ws; cbn [length]; split; try congruence; lia. }
  split; [exact W|]. intros H. assert (ws = []). { destruct ws; [reflexivity|]. rewrite (proj2 W) in H by discriminate. discriminate. } subst ws. cbn [map] in E3. subst a. cbn [app] in E2. subst b. rewrite app_nil_r in *. cbn [map concat] in *. split; [reflexivity|]. split; [reflexivity|]. split; [rewrite app_nil_r; reflexivity|]. rewrite H. cbn [negb]. rewrite andb_true_r. split; [|exact E6].
  rewrite negb_false_iff, Nat.eqb_eq. split; [apply length_zero_iff_nil|intros ->; reflexivity].
Qed.
(** ** A pass *)
Inductive moved_all : list stream -> list stream -> list (sample * Z) -> Prop :=
| mv_nil : moved_all [] [] []
| mv_cons : forall a b ws l l' tr tr', moved a b ws -> moved_all l l' tr -> Permutation (ws ++ tr) tr' -> moved_all (a :: l) (b :: l') tr'.
Lemma moved_all_refl : forall l, moved_all l l [].
Proof. induction l as [|a l IH]; [constructor|]. apply mv_cons with [] []; [split; [rewrite app_nil_r; reflexivity|reflexivity]|exact IH|reflexivity]. Qed.
Lemma moved_all_perm : forall l l' tr tr', moved_all l l' tr -> Permutation tr tr' -> moved_all l l' tr'.
Proof. intros l l' tr tr' H P. inversion H; subst; [apply Permutation_nil in P; subst; constructor|]. eapply mv_cons; [eassumption|eassumption|rewrite <- P; eassumption]. Qed.
Lemma moved_trans : forall a b c x y, moved a b x -> moved b c y -> moved a c (x ++ y).
Proof. intros a b c x y [A1 A2] [B1 B2]. split; [rewrite B1, A1, app_assoc; reflexivity|rewrite A2, B2, map_app, app_assoc; reflexivity]. Qed.
Lemma moved_all_trans : forall a b c x y, moved_all a b x -> moved_all b c y -> moved_all a c (x ++ y).
Proof.
  intros a b c x y H. revert c y. induction H as [|a b ws l l' tr tr' M H IH P]; intros c y G; inversion G; subst; [constructor|].
  match goal with M2 : moved b ?b' ?ws2, H2 : moved_all l' ?l2 ?tr2, P2 : Permutation _ y |- _ => apply mv_cons with (ws ++ ws2) (tr ++ tr2); [apply (moved_trans _ b); assumption|apply IH; assumption|rewrite <- P, <- P2] end.
  rewrite <- !app_assoc. apply Permutation_app_head. rewrite !app_assoc. apply Permutation_app_tail. apply Permutation_app_comm.
Qed.
Lemma moved_all_app : forall a b a' b' x y, moved_all a b x -> moved_all a' b' y -> moved_all (a ++ a') (b ++ b') (x ++ y).
Proof.
  intros a b a' b' x y H G. induction H as [|a b ws l l' tr tr' M H IH P]; [exact G|]. cbn [app]. apply mv_cons with ws (tr ++ y); [exact M|exact IH|rewrite <- P, app_assoc; reflexivity].
Qed.
Lemma moved_all_length : forall a b x, moved_all a b x -> length a = length b. Proof. intros a b x H. induction H; [reflexivity|]. cbn [length]. lia. Qed.
Lemma laid_out_app : forall a b pos, laid_out pos (a ++ b) <-> laid_out pos a /\ laid_out (pos + Z.of_nat (length (concat (map body_of a)))) b.
Proof.
  induction a as [|[s p] a IH]; intros b pos; [cbn; rewrite Z.add_0_r; tauto|]. cbn [app laid_out map concat]. rewrite IH, app_length, Nat2Z.inj_add. unfold body_of at 2. cbn [fst]. rewrite Z.add_assoc. tauto.
Qed.
(** values of the limits *)
Definition okmax (dist : Z) (l : list stream) (maxc : Z) : Prop := maxc = min_stream dist l.
Lemma pass_spec : forall uc dist todo done file maxc used w over, exists l' file' maxc' used' w' over' tr, pass uc dist done todo file maxc used w over = (done ++ l', file', maxc', used', w', over')
  /\ moved_all todo l' tr /\ file' = file ++ concat (map body_of tr) /\ laid_out (Z.of_nat (length file)) tr
  /\ (w = true -> w' = true) /\ (tr <> [] -> w' = true) /\ (w' = true -> w = true \/ tr <> [])
  /\ (maxc = min_stream dist (done ++ todo) -> maxc' = min_stream dist (done ++ l'))
  /\ (tr <> [] -> maxc' = used' /\ maxc' = min_stream dist (done ++ l'))
  /\ (tr = [] -> l' = todo /\ used' = used /\ maxc' = maxc /\ (over' = true <-> over = true /\ Forall (fun st => pending st <> []) todo)
      /\ Forall (fun st => forall s r, pending st = s :: r -> early uc (u64 (used + dist)) s = false) todo).
Proof.
  induction todo as [|st todo IH]; intros done file maxc used w over.
  - exists [], file, maxc, used, w, over, []. cbn [pass map concat]. rewrite !app_nil_r. split; [reflexivity|]. split; [constructor|]. split; [reflexivity|]. split; [exact I|]. split; [tauto|]. split; [congruence|]. split; [intros ->; left; reflexivity|]. split; [tauto|]. split; [congruence|]. intros _. repeat split; try tauto; constructor.
  - cbn [pass]. destruct (write_samples_spec uc (u64 (used + dist)) st file) as (st' & file1 & wrote & so & ws & E & M & F1 & L1 & W1 & W2). rewrite E. destruct wrote.
    + assert (Nw : ws <> []) by (apply W1; reflexivity). set (m := min_stream dist (done ++ st' :: todo)).
      destruct (IH (done ++ [st']) file1 m m true over) as (l' & file' & maxc' & used' & w' & over' & tr & E1 & E2 & E3 & E4 & E5 & E6 & E7 & E8 & E9 & E10). rewrite E1.
      exists (st' :: l'), file', maxc', used', w', over', (ws ++ tr). split; [rewrite <- app_assoc; reflexivity|]. split; [apply mv_cons with ws tr; [exact M|exact E2|reflexivity]|].
      split; [rewrite E3, F1, map_app, concat_app, app_assoc; reflexivity|]. split; [apply laid_out_app; split; [exact L1|]; rewrite <- Nat2Z.inj_add, <- app_length, <- F1; exact E4|].
      assert (Nt : ws ++ tr <> []) by (destruct ws; [congruence|discriminate]). assert (Ew : w' = true) by (apply E5; reflexivity).
      split; [intros _; exact Ew|]. split; [intros _; exact Ew|]. split; [intros _; right; exact Nt|].
      assert (Em : maxc' = min_stream dist (done ++ st' :: l')). { replace (done ++ st' :: l') with ((done ++ [st']) ++ l') by (rewrite <- app_assoc; reflexivity). apply E8. unfold m. rewrite <- app_assoc. reflexivity. }
      split; [intros _; exact Em|]. split; [intros _; split; [|exact Em]|intros Q; contradiction].
      destruct tr as [|t tr]; [|apply E9; discriminate]. destruct (E10 eq_refl) as (_ & Q1 & Q2 & _). congruence.
    + destruct (W2 eq_refl) as (-> & -> & -> & S1 & S2). destruct (IH (done ++ [st]) file maxc used w (over && so)) as (l' & file' & maxc' & used' & w' & over' & tr & E1 & E2 & E3 & E4 & E5 & E6 & E7 & E8 & E9 & E10). rewrite E1.
      exists (st :: l'), file', maxc', used', w', over', tr. rewrite <- !app_assoc in *. cbn [app] in *. split; [reflexivity|]. split; [apply mv_cons with [] tr; [exact M|exact E2|reflexivity]|]. split; [exact E3|]. split; [exact E4|]. split; [exact E5|]. split; [exact E6|]. split; [exact E7|]. split; [exact E8|]. split; [exact E9|].
      intros Q. destruct (E10 Q) as (Q1 & Q2 & Q3 & Q4 & Q5). split; [rewrite Q1; reflexivity|]. split; [exact Q2|]. split; [exact Q3|]. split; [|constructor; [exact S2|exact Q5]].
      rewrite Q4, andb_true_iff. split.
      * intros [[O1 O2] O3]. split; [exact O1|]. constructor; [|exact O3]. intros P. apply S1 in P. congruence.
      * intros [O1 O2]. split; [|exact (Forall_inv_tail O2)]. split; [exact O1|]. destruct so; [reflexivity|]. exfalso. apply (Forall_inv O2). apply S1. reflexivity.
Qed.
(** ** The loop keeps every sample *)
Lemma write_loop_keeps : forall fuel uc dist inc l file maxc used l' file' maxc', write_loop fuel uc dist inc l file maxc used = Some (l', file', maxc') -> maxc = min_stream dist l ->
  exists tr, moved_all l l' tr /\ file' = file ++ concat (map body_of tr) /\ laid_out (Z.of_nat (length file)) tr /\ maxc' = min_stream dist l' /\ Exists (fun st => pending st = []) l'.
Proof.
  induction fuel as [|fuel IH]; intros uc dist inc l file maxc used l' file' maxc' H Hm; [discriminate|]. cbn [write_loop] in H.
  destruct (pass_spec uc dist l [] file maxc used false true) as (l1 & file1 & maxc1 & used1 & w1 & over1 & tr & E1 & E2 & E3 & E4 & E5 & E6 & E7 & E8 & E9 & E10). cbn [app] in *. rewrite E1 in H.
  assert (Hm1 : maxc1 = min_stream dist l1) by (apply E8; exact Hm).
  assert (Next : forall used, write_loop fuel uc dist inc l1 file1 maxc1 used = Some (l', file', maxc') -> exists tr, moved_all l l' tr /\ file' = file ++ concat (map body_of tr) /\ laid_out (Z.of_nat (length file)) tr /\ maxc' = min_stream dist l' /\ Exists (fun st => pending st = []) l').
  { intros u Hu. destruct (IH _ _ _ _ _ _ _ _ _ _ Hu Hm1) as (tr2 & G1 & G2 & G3 & G4 & G5). exists (tr ++ tr2). split; [apply (moved_all_trans _ l1); assumption|]. split; [rewrite G2, E3, map_app, concat_app, app_assoc; reflexivity|]. split; [|split; assumption]. apply laid_out_app. split; [exact E4|]. rewrite <- Nat2Z.inj_add, <- app_length, <- E3. exact G3. }
  destruct w1; [apply (Next used1); exact H|]. destruct over1; [apply (Next (u64 (used1 + inc))); exact H|]. injection H as <- <- <-.
  assert (tr = []) by (destruct tr; [reflexivity|]; specialize (E6 ltac:(discriminate)); discriminate). subst tr. exists []. split; [exact E2|]. split; [exact E3|]. split; [exact E4|]. split; [exact Hm1|].
  destruct (E10 eq_refl) as (-> & _ & _ & Q & _). assert (D : Forall (fun st => pending st <> []) l \/ Exists (fun st => pending st = []) l).
  { clear. induction l as [|st l IH]; [left; constructor|]. destruct (pending st) as [|s r] eqn:Ep; [right; left; exact Ep|]. destruct IH as [IH|IH]; [left; constructor; [rewrite Ep; discriminate|exact IH]|right; right; exact IH]. }
  destruct D as [D|D]; [|exact D]. exfalso. assert (false = true) by (apply Q; split; [reflexivity|exact D]). discriminate.
Qed.
(** ** The history *)
Lemma moved_all_written : forall l l' tr, moved_all l l' tr -> Permutation (concat (map written l')) (concat (map written l) ++ tr).
Proof.
  intros l l' tr H. induction H as [|a b ws l l' tr tr' [M1 M2] H IH P]; [constructor|]. cbn [map concat]. rewrite M1, IH, <- P, <- !app_assoc. apply Permutation_app_head. rewrite !app_assoc. apply Permutation_app_tail. apply Permutation_app_comm.
Qed.
Definition content (st : stream) : list sample := map fst (written st) ++ pending st.
Lemma moved_all_content : forall l l' tr k, moved_all l l' tr -> content (nth k l' stream0) = content (nth k l stream0).
Proof.
  intros l l' tr k H. revert k. induction H as [|a b ws l l' tr tr' [M1 M2] H IH P]; intros k; [reflexivity|]. destruct k as [|k]; cbn [nth]; [|apply IH]. unfold content. rewrite M1, M2, map_app, app_assoc. reflexivity.
Qed.
Lemma on_nth_length : forall A n f (l : list A), length (on_nth n f l) = length l.
Proof. induction n as [|n IH]; intros f [|x l]; cbn [on_nth length]; try reflexivity. rewrite IH. reflexivity. Qed.
Lemma on_nth_nth : forall A n f (l : list A) k d, (n < length l)%nat -> nth k (on_nth n f l) d = if Nat.eqb k n then f (nth k l d) else nth k l d.
Proof. induction n as [|n IH]; intros f [|x l] k d H; cbn [length] in H; try lia; destruct k as [|k]; cbn [on_nth nth Nat.eqb]; try reflexivity. apply IH. lia. Qed.
Lemma queue_written : forall n s l, map written (on_nth n (queue s) l) = map written l.
Proof. induction n as [|n IH]; intros s [|x l]; cbn [on_nth map]; try reflexivity. rewrite IH. reflexivity. Qed.
Lemma min_stream_ext : forall dist l l', map written l = map written l' -> min_stream dist l = min_stream dist l'.
Proof.
  intros dist l l' E. unfold min_stream. generalize (u64 (2 ^ 64 - 1 - dist)). revert l' E. induction l as [|a l IH]; intros [|b l'] E m; try discriminate; [reflexivity|]. cbn [map] in E. injection E as E1 E2. cbn [fold_left]. replace (sample_max a) with (sample_max b) by (unfold sample_max; rewrite E1; reflexivity). rewrite E1. apply IH. exact E2.
Qed.
Lemma given_app : forall h k j s, given (h ++ [(j, s)]) k = given h k ++ (if Nat.eqb j k then [s] else []).
Proof. intros. unfold given. rewrite filter_app, map_app. cbn [filter fst]. destruct (Nat.eqb j k); reflexivity. Qed.
Lemma min_stream0 : forall dist n, min_stream dist (repeat stream0 n) = u64 (2 ^ 64 - 1 - dist).
Proof. intros. unfold min_stream. generalize (u64 (2 ^ 64 - 1 - dist)). induction n as [|n IH]; intros m; [reflexivity|]. cbn [repeat fold_left]. apply IH. Qed.
Lemma concat_repeat_nil : forall n, concat (map written (repeat stream0 n)) = [].
Proof. induction n as [|n IH]; [reflexivity|]. cbn [repeat map concat]. rewrite IH. reflexivity. Qed.
Lemma after_inv : forall uc dist inc n h m, after uc dist inc n h m -> length (m_streams m) = n /\ m_max m = min_stream dist (m_streams m)
  /\ (forall k, (k < n)%nat -> content (nth k (m_streams m) stream0) = given h k)
  /\ (exists tr, Permutation (concat (map written (m_streams m))) tr /\ m_file m = concat (map body_of tr) /\ laid_out 0 tr)
  /\ (h = [] \/ Exists (fun st => pending st = []) (m_streams m)).
Proof.
  intros uc dist inc n h m H. induction H as [|h m k s fuel m' H (I1 & I2 & I3 & (tr & P & F & L) & _) Hk E].
  - cbn [mux0 m_streams m_max m_file]. split; [apply repeat_length|]. split; [symmetry; apply min_stream0|]. split; [intros k Hk; rewrite nth_repeat; reflexivity|]. split; [exists []; rewrite concat_repeat_nil; repeat split; constructor|left; reflexivity].
  - unfold add_sample in E. destruct (write_loop _ _ _ _ _ _ _ _) as [[[l' file'] maxc']|] eqn:W; [|discriminate]. injection E as <-. cbn [m_streams m_max m_file].
    destruct (write_loop_keeps _ _ _ _ _ _ _ _ _ _ _ W) as (tr2 & M & G1 & G2 & G3 & G4). { rewrite I2. apply min_stream_ext. symmetry. apply queue_written. }
    split; [rewrite <- (moved_all_length _ _ _ M), on_nth_length; exact I1|]. split; [exact G3|]. split; [|split; [|right; exact G4]].
    + intros j Hj. rewrite (moved_all_content _ _ _ j M), on_nth_nth by lia. rewrite given_app, (Nat.eqb_sym k j). destruct (Nat.eqb_spec j k) as [->|N]; [|rewrite app_nil_r; apply I3; exact Hj]. unfold content at 1. cbn [queue written pending]. rewrite app_assoc. f_equal. apply I3. exact Hj.
    + exists (tr ++ tr2). split; [rewrite (moved_all_written _ _ _ M), queue_written, P; reflexivity|]. split; [rewrite G1, F, map_app, concat_app; reflexivity|]. apply laid_out_app. split; [exact L|]. rewrite Z.add_0_l, <- F. exact G2.
Qed.
(** bytes of a sample in the file *)
Lemma laid_out_slice : forall tr pre s p, laid_out (Z.of_nat (length pre)) tr -> In (s, p) tr -> 0 <= p /\ firstn (length (s_body s)) (skipn (Z.to_nat p) (pre ++ concat (map body_of tr))) = s_body s.
Proof.
  induction tr as [|[s0 p0] tr IH]; intros pre s p L I; [destruct I|]. cbn [laid_out] in L. destruct L as [-> L]. cbn [map concat]. destruct I as [E|I].
  - injection E as -> <-. split; [lia|]. rewrite Nat2Z.id, skipn_app, skipn_all, Nat.sub_diag. cbn [skipn app]. rewrite <- (Nat.add_0_r (length (s_body s))). unfold body_of at 1. cbn [fst]. rewrite firstn_app_2, firstn_O, app_nil_r. reflexivity.
  - rewrite app_assoc. apply IH; [|exact I]. rewrite app_length, Nat2Z.inj_add. exact L.
Qed.
(** ** Termination *)
Definition npend (l : list stream) : nat := length (concat (map pending l)).
Lemma moved_all_pending : forall l l' tr, moved_all l l' tr -> npend l = (length tr + npend l')%nat.
Proof. intros l l' tr H. unfold npend. induction H as [|a b ws l l' tr tr' [M1 M2] H IH P]; [reflexivity|]. cbn [map concat]. rewrite M2, !app_length, map_length, IH. rewrite <- (Permutation_length P), app_length. lia. Qed.
Definition good_stream (st : stream) : Prop := Forall good_time (content st).
Lemma moved_all_good : forall l l' tr, moved_all l l' tr -> Forall good_stream l -> Forall good_stream l'.
Proof. intros l l' tr H. induction H as [|a b ws l l' tr tr' [M1 M2] H IH P]; intros F; [constructor|]. constructor; [|apply IH; exact (Forall_inv_tail F)]. pose proof (Forall_inv F) as G. unfold good_stream, content in *. rewrite M1, map_app, <- app_assoc, <- M2. exact G. Qed.
Lemma sample_max_bound : forall st, good_stream st -> 0 <= sample_max st < 2 ^ 62.
Proof.
  intros st G. unfold good_stream, content in G. apply Forall_app in G. destruct G as [G _]. unfold sample_max.
  assert (X : forall w m, 0 <= m < 2 ^ 62 -> Forall good_time (map fst w) -> 0 <= fold_left (fun m (x : sample * Z) => if m <? s_comp (fst x) then s_comp (fst x) else m) w m < 2 ^ 62).
  { induction w as [|[s p] w IH]; intros m H F; [exact H|]. cbn [map fst] in F. cbn [fold_left fst]. apply IH; [|exact (Forall_inv_tail F)]. pose proof (Forall_inv F) as [Q _]. destruct (m <? s_comp s); lia. }
  apply X; [lia|exact G].
Qed.
Definition limit (dist used : Z) : Z := s64 (u64 (used + dist)).
Lemma min_stream_limit : forall dist l, 0 <= dist < 2 ^ 61 -> Forall good_stream l -> -1 <= limit dist (min_stream dist l) < 2 ^ 63.
Proof.
  intros dist l Hd F. assert (C : min_stream dist l = 2 ^ 64 - 1 - dist \/ 0 <= min_stream dist l < 2 ^ 62).
  { unfold min_stream. rewrite u64_id by lia.
    assert (X : forall l m0, Forall good_stream l -> m0 = 2 ^ 64 - 1 - dist \/ 0 <= m0 < 2 ^ 62 -> fold_left (fun m st => if (0 <? length (written st))%nat && (sample_max st <? m) then sample_max st else m) l m0 = 2 ^ 64 - 1 - dist \/ 0 <= fold_left (fun m st => if (0 <? length (written st))%nat && (sample_max st <? m) then sample_max st else m) l m0 < 2 ^ 62).
    { clear. induction l as [|st l IH]; intros m0 F H; [exact H|]. cbn [fold_left]. apply IH; [exact (Forall_inv_tail F)|]. pose proof (sample_max_bound st (Forall_inv F)). destruct ((0 <? length (written st))%nat && (sample_max st <? m0)); [right; lia|exact H]. }
    apply X; [exact F|left; reflexivity]. }
  unfold limit, s64. destruct C as [->|C]; [replace (2 ^ 64 - 1 - dist + dist) with (2 ^ 64 - 1) by lia; rewrite u64_id by lia; destruct (Z.ltb_spec (2 ^ 64 - 1) (2 ^ 63)); lia|]. rewrite u64_id by lia. destruct (Z.ltb_spec (min_stream dist l + dist) (2 ^ 63)); lia.
Qed.
Lemma limit_inc : forall dist used inc, -1 <= limit dist used < 2 ^ 62 -> 0 < inc < 2 ^ 61 -> limit dist (u64 (used + inc)) = limit dist used + inc.
Proof.
  intros dist used inc H Hi. unfold limit, s64, u64 in *. rewrite Zplus_mod_idemp_l. replace (used + inc + dist) with (used + dist + inc) by lia. rewrite <- (Zplus_mod_idemp_l (used + dist) inc). pose proof (Z.mod_pos_bound (used + dist) (2 ^ 64) ltac:(lia)) as B. set (v := (used + dist) mod 2 ^ 64) in *.
  destruct (Z.ltb_spec v (2 ^ 63)).
  - rewrite Z.mod_small by lia. destruct (Z.ltb_spec (v + inc) (2 ^ 63)); lia.
  - replace (v + inc) with (v + inc - 2 ^ 64 + 1 * 2 ^ 64) by lia. rewrite Z.mod_add by lia. rewrite Z.mod_small by lia. destruct (Z.ltb_spec (v + inc - 2 ^ 64) (2 ^ 63)); lia.
Qed.
Lemma write_loop_ends : forall uc dist inc, 0 <= dist < 2 ^ 61 -> 0 < inc < 2 ^ 61 -> forall p l file maxc used, npend l = p -> l <> [] -> Forall good_stream l -> maxc = min_stream dist l -> -1 <= limit dist used < 2 ^ 63 ->
  exists fuel r, write_loop fuel uc dist inc l file maxc used = Some r.
Proof.
  intros uc dist inc Hd Hi p. induction p as [p IHp] using lt_wf_ind. intros l file maxc used Hp Hl G Hm Hu.
  remember (Z.to_nat (2 ^ 63 - limit dist used)) as q eqn:Hq. revert used maxc Hm Hu Hq. induction q as [q IHq] using lt_wf_ind. intros used maxc Hm Hu Hq.
  destruct (pass_spec uc dist l [] file maxc used false true) as (l1 & file1 & maxc1 & used1 & w1 & over1 & tr & E1 & E2 & E3 & E4 & E5 & E6 & E7 & E8 & E9 & E10). cbn [app] in *. assert (Hm1 : maxc1 = min_stream dist l1) by (apply E8; exact Hm). pose proof (moved_all_good _ _ _ E2 G) as G1.
  destruct tr as [|t tr].
  - destruct (E10 eq_refl) as (-> & -> & -> & Q & R). destruct w1; [destruct (E7 eq_refl); congruence|]. destruct over1.
    + destruct (proj1 Q eq_refl) as [_ Np]. assert (Hlim : limit dist used < 2 ^ 62).
      { destruct l as [|st l]; [congruence|]. pose proof (Forall_inv Np) as N0. cbv beta in N0. destruct (pending st) as [|s r] eqn:Ep; [congruence|]. pose proof (Forall_inv R s r Ep) as Er. unfold early in Er. fold (limit dist used) in Er. apply Z.leb_gt in Er. pose proof (Forall_inv G) as Gs. unfold good_stream, content in Gs. rewrite Ep in Gs. apply Forall_app in Gs. destruct Gs as [_ Gs]. destruct (Forall_inv Gs) as [C1 C2]. destruct uc; lia. }
      assert (Hn : limit dist (u64 (used + inc)) = limit dist used + inc) by (apply limit_inc; lia).
      destruct (IHq (Z.to_nat (2 ^ 63 - limit dist (u64 (used + inc)))) ltac:(lia) (u64 (used + inc)) maxc Hm ltac:(lia) eq_refl) as (fuel & r & W).
      exists (S fuel), r. cbn [write_loop]. rewrite E1. replace file1 with file by (rewrite E3; cbn; rewrite app_nil_r; reflexivity). exact W.
    + exists 1%nat. eexists. cbn [write_loop]. rewrite E1. reflexivity.
  - assert (w1 = true) by (apply E6; discriminate). subst w1. destruct (E9 ltac:(discriminate)) as [U1 U2].
    pose proof (moved_all_pending _ _ _ E2) as Pn. cbn [length] in Pn. assert (Hl1 : l1 <> []) by (intros ->; apply moved_all_length in E2; destruct l; [congruence|discriminate]).
    destruct (IHp (npend l1) ltac:(lia) l1 file1 maxc1 used1 eq_refl Hl1 G1 Hm1) as (fuel & r & W). { rewrite <- U1, Hm1. apply min_stream_limit; assumption. }
    exists (S fuel), r. cbn [write_loop]. rewrite E1. exact W.
Qed.
Lemma add_ends : forall uc dist inc n h m k s, 0 <= dist < 2 ^ 61 -> 0 < inc < 2 ^ 61 -> after uc dist inc n h m -> Forall (fun x => good_time (snd x)) h -> (k < n)%nat -> good_time s -> exists fuel m', add_sample fuel uc dist inc m k s = Some m'.
Proof.
  intros uc dist inc n h m k s Hd Hi A F Hk Hs. destruct (after_inv _ _ _ _ _ _ A) as (I1 & I2 & I3 & _ & _).
  assert (Gm : Forall good_stream (m_streams m)). { apply Forall_forall. intros st Hst. apply (In_nth _ _ stream0) in Hst. destruct Hst as (j & Hj & <-). unfold good_stream. rewrite I3 by lia. unfold given. apply Forall_map. apply Forall_forall. intros x Hx. apply filter_In in Hx. rewrite Forall_forall in F. apply F. apply Hx. }
  assert (Gq : Forall good_stream (on_nth k (queue s) (m_streams m))). { apply Forall_forall. intros st Hst. apply (In_nth _ _ stream0) in Hst. destruct Hst as (j & Hj & <-). rewrite on_nth_length in Hj. rewrite on_nth_nth by lia. rewrite Forall_forall in Gm. pose proof (Gm (nth j (m_streams m) stream0) ltac:(apply nth_In; lia)) as Gj. destruct (Nat.eqb j k); [|exact Gj]. unfold good_stream, content in *. cbn [queue written pending]. rewrite app_assoc. apply Forall_app. split; [exact Gj|constructor; [exact Hs|constructor]]. }
  assert (Em : m_max m = min_stream dist (on_nth k (queue s) (m_streams m))) by (rewrite I2; apply min_stream_ext; symmetry; apply queue_written).
  destruct (write_loop_ends uc dist inc Hd Hi _ (on_nth k (queue s) (m_streams m)) (m_file m) (m_max m) (m_max m) eq_refl) as (fuel & r & W); [|exact Gq|exact Em| |].
  - intros Q. apply (f_equal (@length stream)) in Q. rewrite on_nth_length in Q. cbn in Q. lia.
  - rewrite Em. apply min_stream_limit; assumption.
  - exists fuel. unfold add_sample. rewrite W. destruct r as [[l f] mm]. eexists. reflexivity.
Qed.
(** ** A stream that gets nothing *)
Lemma after_nothing : forall uc dist inc n h m k, 0 <= dist < 2 ^ 61 -> after uc dist inc n h m -> Forall (fun x => good_time (snd x)) h -> (k < n)%nat -> given h k = [] -> m_file m = [] /\ Forall (fun st => written st = []) (m_streams m).
Proof.
  intros uc dist inc n h m k Hd A. induction A as [|h m j s fuel m' A IH Hj E]; intros F Hk Hg.
  - split; [reflexivity|]. cbn [mux0 m_streams]. apply Forall_forall. intros st Hst. apply repeat_spec in Hst. subst st. reflexivity.
  - apply Forall_app in F. destruct F as [Fh Fs]. rewrite given_app in Hg. apply app_eq_nil in Hg. destruct Hg as [Hg Hj2]. destruct (Nat.eqb_spec j k) as [->|Njk]; [discriminate|].
    destruct (IH Fh Hk Hg) as [H1 H2]. destruct (after_inv _ _ _ _ _ _ A) as (I1 & I2 & I3 & _ & _). set (l := on_nth j (queue s) (m_streams m)) in *.
    assert (Wl : Forall (fun st => written st = []) l). { apply Forall_forall. intros st Hst. apply (In_nth _ _ stream0) in Hst. destruct Hst as (i & Hi & <-). unfold l in *. rewrite on_nth_length in Hi. rewrite on_nth_nth by lia. rewrite Forall_forall in H2. pose proof (H2 (nth i (m_streams m) stream0) ltac:(apply nth_In; lia)) as Q. destruct (Nat.eqb i j); exact Q. }
    assert (Pk : pending (nth k l stream0) = []). { unfold l. rewrite on_nth_nth by lia. rewrite (proj2 (Nat.eqb_neq k j)) by lia. pose proof (I3 k Hk) as Q. rewrite Hg in Q. unfold content in Q. apply app_eq_nil in Q. apply Q. }
    assert (Max : m_max m = 2 ^ 64 - 1 - dist). { rewrite I2. rewrite (min_stream_ext dist _ (repeat stream0 n)), min_stream0; [apply u64_id; lia|]. apply (nth_ext _ _ [] []); [rewrite !map_length, repeat_length; exact I1|]. intros i Hi. rewrite map_length in Hi. change [] with (written stream0). rewrite !map_nth, nth_repeat. rewrite Forall_forall in H2. cbn. apply H2. apply nth_In. exact Hi. }
    unfold add_sample in E. fold l in E. destruct fuel as [|fuel]; [discriminate|]. cbn [write_loop] in E.
    destruct (pass_spec uc dist l [] (m_file m) (m_max m) (m_max m) false true) as (l1 & file1 & maxc1 & used1 & w1 & over1 & tr & E1 & E2 & E3 & E4 & E5 & E6 & E7 & E8 & E9 & E10). cbn [app] in *. rewrite E1 in E.
    assert (Pg : forall st s, In st l -> In s (pending st) -> good_time s). { intros st s' Hst Hs. apply (In_nth _ _ stream0) in Hst. destruct Hst as (i & Hi & <-). unfold l in *. rewrite on_nth_length in Hi. rewrite on_nth_nth in Hs by lia. pose proof (I3 i ltac:(lia)) as Q.
      assert (Base : In s' (pending (nth i (m_streams m) stream0)) -> good_time s'). { intros Hb. assert (In s' (given h i)) as R by (rewrite <- Q; unfold content; apply in_or_app; right; exact Hb). unfold given in R. apply in_map_iff in R. destruct R as (x & <- & Hx). apply filter_In in Hx. rewrite Forall_forall in Fh. apply Fh. apply Hx. }
      destruct (Nat.eqb i j); [|apply Base; exact Hs]. cbn [queue pending] in Hs. apply in_app_or in Hs. destruct Hs as [Hs|[<-|[]]]; [apply Base; exact Hs|]. exact (Forall_inv Fs). }
    assert (Lim : limit dist (m_max m) = -1) by (unfold limit, s64; rewrite Max; replace (2 ^ 64 - 1 - dist + dist) with (2 ^ 64 - 1) by lia; rewrite u64_id by lia; reflexivity).
    assert (X : forall todo done file over, (forall st s, In st todo -> In s (pending st) -> good_time s) -> exists o, pass uc dist done todo file (m_max m) (m_max m) false over = (done ++ todo, file, m_max m, m_max m, false, o)).
    { clear - Lim. induction todo as [|st todo IH]; intros done file over H; [exists over; cbn; rewrite app_nil_r; reflexivity|]. cbn [pass]. assert (Ws : write_samples uc (u64 (m_max m + dist)) st file = (st, file, false, negb (length (pending st) =? 0)%nat)).
      { unfold write_samples. assert (Wq : write_queue uc (u64 (m_max m + dist)) (pending st) (written st) file = (pending st, written st, file)). { destruct (pending st) as [|s q] eqn:Ep; [reflexivity|]. cbn [write_queue]. replace (early uc (u64 (m_max m + dist)) s) with false; [reflexivity|]. symmetry. unfold early. fold (limit dist (m_max m)). rewrite Lim. apply Z.leb_gt. destruct (H st s (or_introl eq_refl) ltac:(rewrite Ep; left; reflexivity)). destruct uc; lia. }
        rewrite Wq, Nat.eqb_refl. cbn [negb]. rewrite andb_true_r. destruct st; reflexivity. }
      rewrite Ws. destruct (IH (done ++ [st]) file (over && negb (length (pending st) =? 0)%nat) (fun st' s' Hst => H st' s' (or_intror Hst))) as (o & Q). exists o. rewrite Q, <- app_assoc. reflexivity. }
    destruct (X l [] (m_file m) true Pg) as (o & Q). cbn [app] in Q. rewrite E1 in Q. injection Q as -> -> -> -> -> ->.
    assert (o = false) as ->. { destruct o; [exfalso|reflexivity].
      assert (Nt : tr = []) by (destruct tr; [reflexivity|]; specialize (E6 ltac:(discriminate)); discriminate). destruct (E10 Nt) as (_ & _ & _ & [O _] & _). destruct (O eq_refl) as [_ O2]. rewrite Forall_forall in O2. apply (O2 (nth k l stream0)); [apply nth_In; unfold l; rewrite on_nth_length; lia|exact Pk]. }
    injection E as <-. cbn [m_file m_streams]. split; assumption.
Qed.
(** ** Together *)
Lemma after_kept : forall uc dist inc n h m, after uc dist inc n h m -> length (m_streams m) = n
  /\ (forall k, (k < n)%nat -> given h k = map fst (written (nth k (m_streams m) stream0)) ++ pending (nth k (m_streams m) stream0))
  /\ exists tr, Permutation tr (concat (map written (m_streams m))) /\ laid_out 0 tr /\ m_file m = concat (map (fun x => s_body (fst x)) tr).
Proof.
  intros uc dist inc n h m A. destruct (after_inv _ _ _ _ _ _ A) as (I1 & _ & I3 & (tr & P & F & L) & _). split; [exact I1|]. split; [intros k Hk; symmetry; apply I3; exact Hk|]. exists tr. split; [symmetry; exact P|]. split; assumption.
Qed.
Lemma after_bytes : forall uc dist inc n h m k s p, after uc dist inc n h m -> In (s, p) (written (nth k (m_streams m) stream0)) -> 0 <= p /\ firstn (length (s_body s)) (skipn (Z.to_nat p) (m_file m)) = s_body s.
Proof.
  intros uc dist inc n h m k s p A I. destruct (after_inv _ _ _ _ _ _ A) as (_ & _ & _ & (tr & P & F & L) & _). rewrite F. apply (laid_out_slice tr []); [exact L|]. apply (Permutation_in _ P). apply in_concat. exists (written (nth k (m_streams m) stream0)). split; [|exact I]. apply in_map. destruct (Nat.lt_ge_cases k (length (m_streams m))); [apply nth_In; assumption|]. rewrite nth_overflow in I by assumption. destruct I.
Qed.
Lemma after_one_empty : forall uc dist inc n h m, after uc dist inc n h m -> h <> [] -> exists k, (k < n)%nat /\ map fst (written (nth k (m_streams m) stream0)) = given h k.
Proof.
  intros uc dist inc n h m A Nh. destruct (after_inv _ _ _ _ _ _ A) as (I1 & _ & I3 & _ & [D|D]); [congruence|]. apply Exists_exists in D. destruct D as (st & Hst & Hp). apply (In_nth _ _ stream0) in Hst. destruct Hst as (k & Hk & <-). exists k. split; [lia|]. rewrite <- I3 by lia. unfold content. rewrite Hp, app_nil_r. reflexivity.
Qed.
Lemma after_single : forall uc dist inc h m, after uc dist inc 1 h m -> m_file m = concat (map s_body (given h 0)) /\ map fst (written (nth 0 (m_streams m) stream0)) = given h 0.
Proof.
  intros uc dist inc h m A. assert (W : map fst (written (nth 0 (m_streams m) stream0)) = given h 0).
  { destruct h as [|x h]; [|destruct (after_one_empty _ _ _ _ _ _ A) as (k & Hk & E); [discriminate|]; replace 0%nat with k by lia; exact E]. inversion A as [|h m0 k s fuel m' A2 Hk E Q]; [reflexivity|]. destruct h; discriminate. }
  split; [|exact W]. 
  clear W. induction A as [|h m k s fuel m' A IH Hk E]; [reflexivity|]. assert (k = 0)%nat by lia. subst k.
  pose proof A as A0. destruct (after_inv _ _ _ _ _ _ A) as (I1 & I2 & I3 & _ & Ie). pose proof (after_add uc dist inc 1 h m 0%nat s fuel m' A0 Hk E) as A1. destruct (after_inv _ _ _ _ _ _ A1) as (J1 & _ & J3 & _ & [Je|Je]); [destruct h; discriminate|].
  unfold add_sample in E. destruct (write_loop _ _ _ _ _ _ _ _) as [[[l' file'] maxc']|] eqn:W; [|discriminate]. injection E as <-. cbn [m_file m_streams] in *.
  destruct (write_loop_keeps _ _ _ _ _ _ _ _ _ _ _ W) as (tr & M & G1 & _). { rewrite I2. apply min_stream_ext. symmetry. apply queue_written. }
  rewrite G1, IH, given_app. cbn [Nat.eqb]. rewrite map_app, concat_app. f_equal.
  destruct (m_streams m) as [|st [|]] eqn:Es; try discriminate. cbn [on_nth] in M. inversion M as [|a b ws l l2 tr1 tr2 [M1 M2] M3 P]; subst. inversion M3; subst. rewrite app_nil_r in P. cbn [queue pending] in M2.
  assert (Pb : pending b = []) by (inversion Je as [? ? Q|? ? Q]; subst; [exact Q|inversion Q]).
  assert (Ps : pending st = []). { destruct Ie as [->|Ie]; [|inversion Ie as [? ? Q|? ? Q]; subst; [exact Q|inversion Q]]. pose proof (I3 0%nat Hk) as Q. cbn [nth] in Q. unfold content in Q. apply app_eq_nil in Q. apply Q. }
  rewrite Pb, Ps, app_nil_r in M2. cbn [app] in M2. destruct ws as [|[s0 p0] [|]]; cbn in M2; try discriminate. injection M2 as <-. apply Permutation_length_1_inv in P. subst tr. reflexivity.
Qed.
(** ** Running a history, for the examples *)
Fixpoint run (fuel : nat) (uc : bool) (dist inc : Z) (m : mux) (h : history) : option mux := match h with [] => Some m | (k, s) :: h => match add_sample fuel uc dist inc m k s with Some m' => run fuel uc dist inc m' h | None => None end end.
Lemma run_after : forall fuel uc dist inc n h2 h m m', after uc dist inc n h m -> Forall (fun x => (fst x < n)%nat) h2 -> run fuel uc dist inc m h2 = Some m' -> after uc dist inc n (h ++ h2) m'.
Proof.
  induction h2 as [|[k s] h2 IH]; intros h m m' A F R; [injection R as <-; rewrite app_nil_r; exact A|]. cbn [run] in R. destruct (add_sample fuel uc dist inc m k s) as [m1|] eqn:E; [|discriminate]. replace (h ++ (k, s) :: h2) with ((h ++ [(k, s)]) ++ h2) by (rewrite <- app_assoc; reflexivity). eapply IH; [|exact (Forall_inv_tail F)|exact R]. eapply after_add; [exact A|exact (Forall_inv F)|exact E].
Qed.
