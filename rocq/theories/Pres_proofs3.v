(** Lemmas on the DASH presentation: numbers, times, names. *)
From Coq Require Import String ZifyNat Permutation.
From Verif Require Import Util Dec_spec Dec_lemmas Str_model Str_proofs Mpd_model Mpd_proofs Points_model Points_proofs Points_proofs2 Pres_model Pres_proofs Pres_proofs2.
Local Open Scope Z_scope.

(** * by number *)
Lemma zupto_seq n : forall k, zupto k n = map (fun i => k + Z.of_nat i) (seq 0 n).
Proof.
  induction n as [|n IH]; intros k; [reflexivity|]. cbn [zupto seq map]. f_equal; [lia|]. rewrite IH, <- seq_shift, map_map. apply map_ext. intros i. lia.
Qed.
Lemma zupto_nodup n : NoDup (zupto 0 n).
Proof. rewrite zupto_seq. apply FinFun.Injective_map_NoDup; [intros a b E; lia|apply seq_NoDup]. Qed.
Lemma zupto_length n : forall k, length (zupto k n) = n.
Proof. induction n as [|n IH]; intros k; [reflexivity|]. cbn [zupto length]. rewrite IH. reflexivity. Qed.
Lemma by_id_found p : NoDup (map n_id p) -> forall s, In s p -> by_id p (n_id s) = Some s.
Proof.
  unfold by_id. induction p as [|x p IH]; intros N s I; [destruct I|]. cbn [map] in N. inversion N as [|? ? NI N']; subst. cbn [List.find]. destruct (Z.eqb_spec (n_id s) (n_id x)) as [Q|NE].
  - destruct I as [->|I]; [reflexivity|]. exfalso. apply NI. rewrite <- Q. apply in_map. exact I.
  - destruct I as [->|I]; [contradiction|]. apply IH; assumption.
Qed.
Lemma all_some_map {A} (l : list A) : all_some (map Some l) = Some l.
Proof. induction l as [|a l IH]; [reflexivity|]. cbn [map all_some]. rewrite IH. reflexivity. Qed.
Lemma in_turn_perm p : Permutation (map n_id p) (zupto 0 (length p)) -> exists q, in_turn p = Some q /\ Permutation q p.
Proof.
  intros H. destruct (Permutation_map_inv n_id p (Permutation_sym H)) as (q & E & P). exists q. split; [|symmetry; exact P]. unfold in_turn. rewrite E, map_map.
  assert (N : NoDup (map n_id p)) by (apply (Permutation_NoDup (Permutation_sym H)); apply zupto_nodup).
  rewrite <- (all_some_map q). f_equal. apply map_ext_in. intros s I. apply by_id_found; [exact N|]. apply (Permutation_in _ (Permutation_sym P)). exact I.
Qed.
Lemma all_some_all {A B} (f : A -> option B) l q : all_some (map f l) = Some q -> forall a, In a l -> f a <> None.
Proof.
  revert q. induction l as [|x l IH]; intros q E a I; [destruct I|]. cbn [map all_some] in E. destruct (f x) as [y|] eqn:Ex; [|discriminate]. destruct (all_some (map f l)) as [r|]; [|discriminate].
  destruct I as [->|I]; [congruence|]. apply (IH r eq_refl). exact I.
Qed.
Lemma in_turn_some p q : in_turn p = Some q -> Permutation (map n_id p) (zupto 0 (length p)).
Proof.
  intros E. symmetry. apply NoDup_Permutation_bis; [apply zupto_nodup|rewrite map_length, zupto_length; lia|]. intros i I. pose proof (all_some_all _ _ _ E i I) as H. unfold by_id in H.
  destruct (List.find (fun s => i =? n_id s) p) as [s|] eqn:Ef; [|congruence]. apply find_some in Ef. destruct Ef as (I2 & Q). apply Z.eqb_eq in Q. rewrite Q. apply in_map. exact I2.
Qed.
(** * moving the times *)
Lemma on_id_map i f p : NoDup (map n_id p) -> on_id i f p = map (fun s => if i =? n_id s then f s else s) p.
Proof.
  induction p as [|s p IH]; intros N; [reflexivity|]. cbn [map] in N. inversion N as [|? ? NI N']; subst. cbn [on_id map]. destruct (Z.eqb_spec i (n_id s)) as [->|NE]; [|rewrite IH by assumption; reflexivity].
  f_equal. rewrite <- (map_id p) at 1. apply map_ext_in. intros x I. destruct (Z.eqb_spec (n_id s) (n_id x)) as [Q|]; [|reflexivity]. exfalso. apply NI. rewrite Q. apply in_map. exact I.
Qed.
Lemma fold_on_id f : (forall s, n_id (f s) = n_id s) -> forall is p, NoDup is -> NoDup (map n_id p) -> fold_left (fun p i => on_id i f p) is p = map (fun s => if existsb (fun i => i =? n_id s) is then f s else s) p.
Proof.
  intros Hf. induction is as [|i is IH]; intros p N P; cbn [fold_left existsb]; [symmetry; apply map_id|]. inversion N as [|? ? NI N']; subst.
  rewrite on_id_map by exact P. rewrite IH; [|exact N'|].
  - rewrite map_map. apply map_ext. intros s. destruct (Z.eqb_spec i (n_id s)) as [->|NE]; cbn [orb]; [|reflexivity]. rewrite Hf.
    replace (existsb (fun i => i =? n_id s) is) with false; [reflexivity|]. symmetry. apply not_true_is_false. intros X. apply existsb_exists in X. destruct X as (j & J & Q). apply Z.eqb_eq in Q. subst j. contradiction.
  - rewrite map_map. replace (map (fun x => n_id (if i =? n_id x then f x else x)) p) with (map n_id p); [exact P|]. apply map_ext. intros s. destruct (i =? n_id s); [rewrite Hf|]; reflexivity.
Qed.
Lemma least_ge {A} (streams : list (zmap A)) B : forall a, B <= a -> (forall m, In m streams -> B <= mint m) -> B <= fold_left (fun a m => if mint m <? a then mint m else a) streams a.
Proof.
  induction streams as [|m l IH]; intros a H F; [exact H|]. cbn [fold_left]. apply IH; [|intros m' I; apply F; right; exact I]. destruct (mint m <? a); [apply F; left; reflexivity|exact H].
Qed.
(** what [rebase_pres] gives *)
Lemma rebase_pres_is p : Permutation (map n_id p) (zupto 0 (length p)) -> Forall (fun s => points_ok (n_points s)) p ->
  exists off, rebase_pres p = Some (map (moved off) p) /\ forall s, In s p -> n_points (moved off s) = map (fun x => (fst x + off, snd x)) (n_points s) /\ Forall (fun x => 0 <= fst x < 2 ^ 63) (n_points (moved off s)).
Proof.
  intros H F. destruct (in_turn_perm p H) as (q & E & P). unfold rebase_pres. rewrite E. set (m := least_start (map n_points q)).
  assert (M1 : - 2 ^ 62 <= m).
  { unfold m, least_start. apply least_ge; [lia|]. intros x I. apply in_map_iff in I. destruct I as (s & <- & I). apply (Permutation_in _ P) in I. rewrite Forall_forall in F. destruct (F s I) as (NE & S & B).
    pose proof (mint_key (n_points s) NE) as K. unfold has_key in K. apply in_map_iff in K. destruct K as (y & Ey & Iy). rewrite Forall_forall in B. specialize (B y Iy). lia. }
  assert (M2 : forall s x, In s p -> In x (n_points s) -> m <= fst x).
  { intros s x I J. rewrite Forall_forall in F. destruct (F s I) as (NE & S & B). apply (Z.le_trans _ (mint (n_points s))).
    - unfold m, least_start. apply least_le. apply in_map. apply (Permutation_in _ (Permutation_sym P)). exact I.
    - apply mint_min; [exact S|]. apply in_map. exact J. }
  assert (R : forall off s, In s p -> n_points (moved off s) = map (fun x => (fst x + off, snd x)) (n_points s)).
  { intros off s I. unfold moved. cbn [n_points]. apply rebase_map. rewrite Forall_forall in F. apply (F s I). }
  exists (if m <? 0 then m * -1 else 0). split.
  - f_equal. destruct (Z.ltb_spec m 0).
    + rewrite fold_on_id; [|reflexivity|apply zupto_nodup|apply (Permutation_NoDup (Permutation_sym H)); apply zupto_nodup].
      apply map_ext_in. intros s I. replace (existsb (fun i => i =? n_id s) (zupto 0 (length p))) with true; [reflexivity|]. symmetry. apply existsb_exists. exists (n_id s). split; [|apply Z.eqb_refl].
      apply (Permutation_in _ H). apply in_map. exact I.
    + rewrite <- (map_id p) at 1. apply map_ext_in. intros s I. pose proof (R 0 s I) as X. unfold moved in *. cbn [n_points] in X. rewrite X.
      replace (map (fun x => (fst x + 0, snd x)) (n_points s)) with (n_points s); [destruct s; reflexivity|]. rewrite <- (map_id (n_points s)) at 1. apply map_ext. intros (a & b). cbn [fst snd]. rewrite Z.add_0_r. reflexivity.
  - intros s I. rewrite R by exact I. split; [reflexivity|]. apply Forall_forall. intros y J. apply in_map_iff in J. destruct J as (x & <- & J). cbn [fst]. pose proof (M2 s x I J). rewrite Forall_forall in F. destruct (F s I) as (_ & _ & B). rewrite Forall_forall in B. specialize (B x J). destruct (Z.ltb_spec m 0); lia.
Qed.
(** * ready to be shown *)
Lemma sorted_shift {A} off (m : zmap A) : sorted m -> sorted (map (fun x => (fst x + off, snd x)) m).
Proof.
  induction m as [|(k & v) m IH]; intros S; [exact Logic.I|]. cbn [map sorted fst snd] in *. destruct S as (S1 & S2). split; [|apply IH; exact S2]. apply Forall_map. eapply Forall_impl; [|exact S1]. intros x X. cbn [fst] in *. cbv beta in X. lia.
Qed.
Lemma moved_ready off s : strm_ok s -> n_points (moved off s) = map (fun x => (fst x + off, snd x)) (n_points s) -> Forall (fun x => 0 <= fst x < 2 ^ 63) (n_points (moved off s)) -> ready (moved off s).
Proof.
  intros ((N1 & N2 & _) & (_ & R) & (NE & S & _) & B) E F. unfold ready. cbn [moved n_name n_reps n_points] in *. split; [exact N1|]. split; [exact N2|]. split; [exact R|]. split; [exact B|].
  rewrite E in *. pose proof (sorted_shift off _ S) as S'. destruct (n_points s) as [|(k & v) m]; [contradiction|]. cbn [map fst snd] in *. set (m' := map (fun x => (fst x + off, snd x)) m) in *. eexists. split; [reflexivity|].
  pose proof (render_contiguous m' (k + off) v S') as C. pose proof (Forall_inv F) as K. cbn [fst] in K.
  assert (X : maxt ((k + off, v) :: m') < 2 ^ 63).
  { pose proof (maxt_key ((k + off, v) :: m') ltac:(discriminate)) as J. unfold has_key in J. apply in_map_iff in J. destruct J as (y & Ey & Iy). rewrite Forall_forall in F. specialize (F y Iy). lia. }
  apply (contiguous_ok _ (k + off) (maxt ((k + off, v) :: m'))); [lia|lia|exact C].
Qed.
(** * names *)
Lemma split_last (c : Z) a : forall a' b b', ~ In c b -> ~ In c b' -> a ++ c :: b = a' ++ c :: b' -> a = a' /\ b = b'.
Proof.
  induction a as [|x a IH]; intros [|y a'] b b' B B' E; cbn [app] in E.
  - injection E as ->. split; reflexivity.
  - exfalso. injection E as -> E. apply B. rewrite E. apply in_or_app. right. left. reflexivity.
  - exfalso. injection E as -> E. apply B'. rewrite <- E. apply in_or_app. right. left. reflexivity.
  - injection E as -> E. destruct (IH a' b b' B B' E) as (-> & ->). split; reflexivity.
Qed.
Definition last_part (l : list Z) : Prop := l = str "i" \/ exists t, 0 <= t /\ l = dec t.
Lemma last_part_no l : last_part l -> ~ In 95 l.
Proof. intros [->|(t & T & ->)]; [vm_compute; intuition discriminate|]. apply digit_not; [unfold is_digit; lia|apply dec_digits; exact T]. Qed.
Lemma file_name_inj s s' r r' l l' : 0 <= r -> 0 <= r' -> last_part l -> last_part l' -> file_name s r l = file_name s' r' l' -> n_name s = n_name s' /\ r = r' /\ l = l'.
Proof.
  intros R R' L L' E. unfold file_name in E. set (x := if n_audio s then str ".m4a" else str ".m4v") in *. set (x' := if n_audio s' then str ".m4a" else str ".m4v") in *.
  assert (Lx : length x = 4%nat /\ ~ In 95 x) by (subst x; destruct (n_audio s); split; try reflexivity; vm_compute; intuition discriminate).
  assert (Lx' : length x' = 4%nat /\ ~ In 95 x') by (subst x'; destruct (n_audio s'); split; try reflexivity; vm_compute; intuition discriminate). clearbody x x'.
  change (str "_") with [95] in E.
  assert (E2 : (n_name s ++ 95 :: dec r) ++ 95 :: (l ++ x) = (n_name s' ++ 95 :: dec r') ++ 95 :: (l' ++ x')) by (rewrite <- !app_assoc; exact E).
  assert (H : forall a b, ~ In 95 a -> ~ In 95 b -> ~ In 95 (a ++ b)) by (intros a b X Y Q; apply in_app_or in Q; tauto).
  apply split_last in E2; [|apply H; [apply last_part_no; exact L|apply Lx]|apply H; [apply last_part_no; exact L'|apply Lx']]. destruct E2 as (E3 & E4).
  apply split_last in E3; [|apply digit_not; [unfold is_digit; lia|apply dec_digits; assumption]|apply digit_not; [unfold is_digit; lia|apply dec_digits; assumption]]. destruct E3 as (E5 & E6).
  split; [exact E5|]. split; [apply dec_inj in E6; assumption|].
  assert (Q : length l = length l') by (apply (f_equal (@length Z)) in E4; rewrite !app_length in E4; lia).
  apply (f_equal (firstn (length l))) in E4. rewrite firstn_app, Nat.sub_diag, firstn_all, firstn_O, app_nil_r in E4. rewrite Q, firstn_app, Nat.sub_diag, firstn_all, firstn_O, app_nil_r in E4. exact E4.
Qed.
Lemma nodup_flat {A B K} (f : A -> list B) (key : A -> K) l : NoDup (map key l) -> (forall x, In x l -> NoDup (f x)) -> (forall x y z, In x l -> In y l -> In z (f x) -> In z (f y) -> key x = key y) -> NoDup (flat_map f l).
Proof.
  induction l as [|a l IH]; intros N F D; [constructor|]. cbn [map flat_map] in *. inversion N as [|? ? NI N']; subst.
  assert (G : NoDup (f a)) by (apply F; left; reflexivity). assert (I2 : NoDup (flat_map f l)) by (apply IH; [exact N'|intros x I; apply F; right; exact I|intros x y z I J; apply D; right; assumption]).
  assert (Dis : forall z, In z (f a) -> ~ In z (flat_map f l)).
  { intros z Z1 Z2. apply in_flat_map in Z2. destruct Z2 as (y & Y1 & Y2). apply NI. rewrite (D a y z (or_introl eq_refl) (or_intror Y1) Z1 Y2). apply in_map. exact Y1. }
  clear - G I2 Dis. induction (f a) as [|z r IHr]; [exact I2|]. inversion G as [|? ? NI G']; subst. cbn [app]. constructor.
  - intros X. apply in_app_or in X. destruct X as [X|X]; [contradiction|]. apply (Dis z (or_introl eq_refl) X).
  - apply IHr; [exact G'|]. intros y Y. apply Dis. right. exact Y.
Qed.
Lemma in_files s z : In z (strm_files s) -> exists r l, In r (n_reps s) /\ z = file_name s (r_rate r) l /\ (l = str "i" \/ exists t, In t (all_but_last (n_points s)) /\ l = dec t).
Proof.
  intros H. unfold strm_files in H. apply in_flat_map in H. destruct H as (r & R & [<-|H]); [exists r, (str "i"); split; [exact R|]; split; [reflexivity|left; reflexivity]|].
  apply in_map_iff in H. destruct H as (t & <- & T). exists r, (dec t). split; [exact R|]. split; [reflexivity|]. right. exists t. split; [exact T|reflexivity].
Qed.
Lemma all_but_last_in m : forall t, In t (all_but_last m) -> In t (map fst m).
Proof. induction m as [|(k & v) [|x m] IH]; intros t H; [destruct H|destruct H|]. change (In t (k :: all_but_last (x :: m))) in H. destruct H as [->|H]; [left; reflexivity|right; apply IH; exact H]. Qed.
Lemma all_but_last_nodup m : sorted m -> NoDup (all_but_last m).
Proof.
  induction m as [|(k & v) [|x m] IH]; intros S; [constructor|constructor|]. change (all_but_last ((k, v) :: x :: m)) with (k :: all_but_last (x :: m)). change (Forall (fun p => k < fst p) (x :: m) /\ sorted (x :: m)) in S. destruct S as (S1 & S2). constructor; [|apply IH; exact S2].
  intros X. apply all_but_last_in in X. apply in_map_iff in X. destruct X as (y & <- & Y). rewrite Forall_forall in S1. specialize (S1 y Y). lia.
Qed.
Lemma files_nodup p : NoDup (map n_name p) -> Forall (fun s => rates_ok (n_reps s) /\ sorted (n_points s) /\ Forall (fun x => 0 <= fst x) (n_points s)) p -> NoDup (flat_map strm_files p).
Proof.
  intros N F. rewrite Forall_forall in F.
  assert (LP : forall s, In s p -> forall l, (l = str "i" \/ exists t, In t (all_but_last (n_points s)) /\ l = dec t) -> last_part l).
  { intros s I l [->|(t & T & ->)]; [left; reflexivity|]. right. exists t. split; [|reflexivity]. destruct (F s I) as (_ & _ & G). apply all_but_last_in in T. apply in_map_iff in T. destruct T as (y & <- & Y). rewrite Forall_forall in G. apply G. exact Y. }
  assert (RP : forall s r, In s p -> In r (n_reps s) -> 0 <= r_rate r).
  { intros s r I J. destruct (F s I) as ((_ & G) & _ & _). rewrite Forall_forall in G. apply G. exact J. }
  apply (nodup_flat _ n_name); [exact N| |].
  - intros s I. destruct (F s I) as ((R1 & R2) & S & G). unfold strm_files. apply (nodup_flat _ r_rate); [exact R1| |].
    + intros r J. constructor.
      * intros X. apply in_map_iff in X. destruct X as (t & E & T). apply file_name_inj in E; [|apply (RP s r I J)|apply (RP s r I J)|apply (LP s I); right; exists t; split; [exact T|reflexivity]|left; reflexivity]. destruct E as (_ & _ & E).
        assert (Q : In 105 (dec t)) by (rewrite E; left; reflexivity). revert Q. apply digit_not; [unfold is_digit; lia|]. apply dec_digits. apply all_but_last_in in T. apply in_map_iff in T. destruct T as (y & <- & Y). rewrite Forall_forall in G. apply G. exact Y.
      * assert (T0 : forall t, In t (all_but_last (n_points s)) -> 0 <= t) by (intros t T; apply all_but_last_in in T; apply in_map_iff in T; destruct T as (y & <- & Y); rewrite Forall_forall in G; apply G; exact Y).
        pose proof (all_but_last_nodup _ S) as ND. clear - ND T0 RP I J. induction (all_but_last (n_points s)) as [|t l IH]; [constructor|]. inversion ND as [|? ? NI ND']; subst. cbn [map]. constructor; [|apply IH; [intros u U; apply T0; right; exact U|exact ND']].
        intros X. apply in_map_iff in X. destruct X as (u & E & U). apply file_name_inj in E; [|apply (RP s r I J)|apply (RP s r I J)|right; exists u; split; [apply T0; right; exact U|reflexivity]|right; exists t; split; [apply T0; left; reflexivity|reflexivity]].
        destruct E as (_ & _ & E). apply dec_inj in E; [subst u; contradiction|apply T0; right; exact U|apply T0; left; reflexivity].
    + intros r r' z J J' Z1 Z2. assert (Q : forall r, In r (n_reps s) -> In z (file_name s (r_rate r) (str "i") :: map (fun t => file_name s (r_rate r) (dec t)) (all_but_last (n_points s))) -> exists l, last_part l /\ z = file_name s (r_rate r) l).
      { intros x X [<-|H]; [exists (str "i"); split; [left|]; reflexivity|]. apply in_map_iff in H. destruct H as (t & <- & T). exists (dec t). split; [|reflexivity]. apply (LP s I). right. exists t. split; [exact T|reflexivity]. }
      destruct (Q r J Z1) as (l & L1 & L2). destruct (Q r' J' Z2) as (l' & L1' & L2'). rewrite L2 in L2'. apply file_name_inj in L2'; [apply L2'|apply (RP s r I J)|apply (RP s r' I J')|exact L1|exact L1'].
  - intros s s' z I I' Z1 Z2. apply in_files in Z1. apply in_files in Z2. destruct Z1 as (r & l & R & -> & L). destruct Z2 as (r' & l' & R' & E & L'). apply file_name_inj in E; [apply E|apply (RP s r I R)|apply (RP s' r' I' R')|apply (LP s I l L)|apply (LP s' I' l' L')].
Qed.
(** * the whole *)
Lemma manifest_is cpv cpa p : Forall harmless cpv -> Forall harmless cpa -> p <> [] -> Permutation (map n_id p) (zupto 0 (length p)) -> Forall strm_ok p ->
  exists off text cpvt cpat ess a, rebase_pres p = Some (map (moved off) p) /\ manifest cpv cpa p = Some text /\ Forall quiet cpvt /\ Forall quiet cpat /\ Forall ready (map (moved off) p) /\ Forall2 line_of (map (moved off) p) ess
  /\ emits text ([mkTag (str "MPD") a; mkTag (str "Period") []] ++ all_tags cpvt cpat (0, 1, 0, 0) (map (moved off) p) ess ++ [mkTag (str "/Period") []; mkTag (str "/MPD") []])
  /\ Forall (fun s => rates_ok (n_reps s) /\ sorted (n_points s) /\ Forall (fun x => 0 <= fst x) (n_points s)) (map (moved off) p).
Proof.
  intros Cv Ca NE H F. destruct (rebase_pres_is p H) as (off & E & M); [eapply Forall_impl; [|exact F]; intros s S; apply S|].
  destruct (harmless_emits cpv Cv) as (cpvt & V1 & V2). destruct (harmless_emits cpa Ca) as (cpat & A1 & A2).
  assert (R : Forall ready (map (moved off) p)).
  { apply Forall_map. apply Forall_forall. intros s I. destruct (M s I) as (M1 & M2). rewrite Forall_forall in F. apply moved_ready; [apply F; exact I|exact M1|exact M2]. }
  assert (I0 : exists s0, by_id (map (moved off) p) 0 = Some s0 /\ In s0 (map (moved off) p)).
  { assert (X : In 0 (map n_id p)) by (apply (Permutation_in _ (Permutation_sym H)); destruct p; [contradiction|left; reflexivity]). apply in_map_iff in X. destruct X as (s & E0 & I).
    exists (moved off s). split; [|apply in_map; exact I]. rewrite <- E0. change (n_id s) with (n_id (moved off s)). apply by_id_found; [|apply in_map; exact I].
    rewrite map_map. cbn [moved n_id]. apply (Permutation_NoDup (Permutation_sym H)). apply zupto_nodup. }
  destruct I0 as (s0 & B0 & I0). set (prot := match cpv, cpa with [], [] => false | _, _ => true end).
  assert (D0 : 0 <= duration (n_points s0)).
  { apply in_map_iff in I0. destruct I0 as (s & <- & I). destruct (M s I) as (M1 & M2). rewrite Forall_forall in F. destruct (F s I) as (_ & _ & (NE' & S & _) & _). unfold duration.
    pose proof (sorted_shift off _ S) as S'. rewrite <- M1 in S'. assert (X : n_points (moved off s) <> []) by (rewrite M1; destruct (n_points s); [contradiction|discriminate]).
    pose proof (maxt_max _ _ S' (mint_key _ X)). lia. }
  destruct (begin_emits prot _ D0) as (a & EB).
  destruct (all_emit cpv cpa cpvt cpat (map (moved off) p) (mkDoc 0 1 0 0 (mpd_begin prot (duration (n_points s0)))) ltac:(cbn [d_stream]; lia) ltac:(cbn [d_group]; lia) R V1 A1) as (d' & t & ess & X1 & X2 & X3 & X4).
  exists off. eexists. exists cpvt, cpat, ess, a. split; [exact E|]. split; [|split; [exact V2|split; [exact A2|split; [exact R|split; [exact X4|]]]]].
  - unfold manifest. rewrite E. unfold render_pres. rewrite B0. fold prot. rewrite X1, X2. cbn [d_xml]. rewrite <- app_assoc. reflexivity.
  - split.
    + apply emits_app; [exact EB|]. apply emits_app; [exact X3|]. apply (emits_app ([9] ++ str "</Period>" ++ CRLF) (str "</MPD>") [_] [_]); intros ts0; reflexivity.
    + apply Forall_map. apply Forall_forall. intros s I. destruct (M s I) as (M1 & M2). rewrite Forall_forall in F. destruct (F s I) as (_ & Q & (_ & S & _) & _). split; [exact Q|]. split; [rewrite M1; apply sorted_shift; exact S|].
      eapply Forall_impl; [|exact M2]. intros x X. cbv beta in X. lia.
Qed.
Lemma presentation_resolves cpv cpa p : Forall harmless cpv -> Forall harmless cpa -> p <> [] -> Permutation (map n_id p) (zupto 0 (length p)) -> NoDup (map n_name p) -> Forall strm_ok p ->
  exists text files, manifest cpv cpa p = Some text /\ files_written p = Some files /\ Permutation (player_urls text) files /\ NoDup files.
Proof.
  intros Cv Ca NE H N F. destruct (manifest_is cpv cpa p Cv Ca NE H F) as (off & text & cpvt & cpat & ess & a & E & M & V & A & R & L & T & O).
  assert (H' : Permutation (map n_id (map (moved off) p)) (zupto 0 (length (map (moved off) p)))) by (rewrite map_map, map_length; exact H).
  destruct (in_turn_perm _ H') as (q & Eq & P). exists text, (flat_map strm_files q). split; [exact M|]. split; [unfold files_written; rewrite E, Eq; reflexivity|].
  assert (U : player_urls text = flat_map strm_files (map (moved off) p)).
  { unfold player_urls. rewrite (emits_scan _ _ T). cbn [snd]. unfold play_tags. rewrite !fold_left_app.
    change (fold_left player_tag [mkTag (str "MPD") a; mkTag (str "Period") []] (mkPlayer [] [] [] [] [])) with (mkPlayer [] [] [] [] []).
    rewrite (player_all cpvt cpat (map (moved off) p) _ ess) by assumption. reflexivity. }
  rewrite U. split; [symmetry; apply Permutation_flat_map; exact P|]. apply (Permutation_NoDup (Permutation_flat_map strm_files (Permutation_sym P))). apply files_nodup; [|exact O]. rewrite map_map. exact N.
Qed.
