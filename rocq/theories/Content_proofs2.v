From Coq Require Import Sorted.
From Verif Require Import Util SampleTab_model Walk_model Cut_model Cut_proofs Points_model Points_proofs Points_proofs2 Pres_model Smooth_model Smooth_proofs Fill_model Fill_proofs Fill_proofs2 Fill_proofs3 Content_model Content_proofs.
Local Open Scope Z_scope.

(** * the index of a filled stream *)
Fixpoint fill_ops (e : Z) (gs : list group) : list index_op := match gs with [] => [] | g :: r => AddFile e :: g_points g ++ fill_ops (g_end g) r end.
Lemma add_file_index s it s1 : add_file s it = Some s1 -> f_index s1 = f_index s /\ f_end s1 = f_end s /\ current_end s1 = current_end s.
Proof. unfold add_file. destruct (get _ _) as [[b|]|]; try discriminate. intros E. assert (Q : s1 = with_rates s (put (rate_of (f_audio s) it) (Some (mkBr (b_private b) (b_width b) (b_height b) (add_path (b_paths b) (current_end s) (it_path it)))) (f_rates s))) by congruence. rewrite Q. repeat split; reflexivity. Qed.
Lemma add_group_files l s s' : add_group s l = Some s' -> l <> [] -> f_index s' = index_step (f_index s) (AddFile (current_end s)) /\ f_end s' = f_end s.
Proof.
  destruct l as [|it l]; [intros _ N; contradiction|]. intros E _. cbn [add_group] in E. destruct (add_file s it) as [s1|] eqn:A; [|discriminate E]. destruct (add_file_index s it s1 A) as (A1 & A2 & A3).
  destruct (add_files_ok _ _ _ E) as (B & _). unfold same_but_rates in B. rewrite B. cbn [with_rates with_index f_index f_end]. rewrite A1, A2, A3. split; reflexivity.
Qed.
Lemma fill_index gs : forall first s s', fill first s gs = Some s' -> in_order (f_end s) gs -> Forall (fun g => g_items g <> []) gs -> 0 <= f_end s -> (f_end s = 0 -> i_points (f_index s) = []) -> (forall t, has_key (i_points (f_index s)) t -> t < f_end s) ->
  (first = true -> fresh s) -> f_index s' = fold_left index_step (fill_ops (f_end s) gs) (f_index s).
Proof.
  induction gs as [|g gs IH]; intros first s s' E O N P0 P1 P2 F; cbn [fill] in E; [assert (s' = s) by congruence; subst; reflexivity|].
  destruct (begin_processing first s (g_items g)) as [s1|] eqn:B; [|discriminate E]. inversion_clear N. destruct O as (O1 & O2 & O3).
  assert (CE : current_end s = f_end s). { unfold current_end. destruct (Z.eq_dec (f_end s) 0) as [Q|NE]; [rewrite (P1 Q), Q; reflexivity|]. apply below_end; [lia|exact P2]. }
  assert (X : f_index s1 = index_step (f_index s) (AddFile (f_end s)) /\ f_end s1 = f_end s).
  { unfold begin_processing in B. destruct first.
    - destruct (add_rates s (g_items g)) as [s0|] eqn:A; [|discriminate B]. destruct (add_group_files _ _ _ B H) as (B1 & B2).
      assert (Y : f_index s0 = f_index s /\ f_end s0 = f_end s). { destruct (g_items g) as [|h t]; [contradiction|]. cbn [add_rates] in A. destruct (add_rest_ok _ _ _ A) as (S1 & _). unfold same_but_rates in S1. rewrite S1. split; reflexivity. }
      destruct Y as (Y1 & Y2). assert (C : current_end s0 = current_end s) by (unfold current_end; rewrite Y1, Y2; reflexivity). rewrite B1, B2, C, Y1, Y2, CE. split; reflexivity.
    - destruct (add_group_files _ _ _ B H) as (B1 & B2). rewrite B1, B2, CE. split; reflexivity. }
  destruct X as (X1 & X2). rewrite (IH false (add_points s1 g) s' E).
  - cbn [fill_ops add_points with_end with_index f_index f_end]. rewrite X1. cbn [fold_left]. rewrite fold_left_app. reflexivity.
  - exact O3.
  - exact H0.
  - cbn [add_points with_end f_end]. lia.
  - cbn [add_points with_end f_end]. lia.
  - cbn [add_points with_end with_index f_index f_end]. rewrite X1. intros t K. destruct (steps_keys _ _ _ K) as [I|K2].
    + apply in_map_iff in I. destruct I as (o & <- & I). rewrite Forall_forall in O2. apply (O2 o I).
    + cbn [index_step i_points] in K2. apply P2 in K2. lia.
  - discriminate.
Qed.
Lemma set_insert_last x s : Forall (fun y => y < x) s -> set_insert x s = s ++ [x].
Proof. induction 1 as [|y s H F IH]; [reflexivity|]. cbn [set_insert app]. replace (x <? y) with false by lia. replace (x =? y) with false by lia. rewrite IH. reflexivity. Qed.
Lemma points_last pts : forall i e, ordered pts -> Forall (fun x => e <= fst x) pts -> Forall (fun x : Z * Z => fst x < e) (i_points i) ->
  fold_left index_step (map (fun x => Add (fst x) (snd x)) pts) i = mkindex (i_points i ++ pts) (i_cross i) (i_files i).
Proof.
  induction pts as [|(t & v) pts IH]; intros i e O G F; [rewrite app_nil_r; destruct i; reflexivity|]. inversion_clear G. cbn [fst] in H. cbn [map fold_left index_step fst snd].
  assert (F2 : Forall (fun x : Z * Z => fst x < t) (i_points i)) by (eapply Forall_impl; [|exact F]; intros x X; cbv beta in X; lia). rewrite put_last by exact F2.
  destruct pts as [|(t2 & v2) pts]; [reflexivity|]. destruct O as (O1 & O2 & O3). cbn [fst snd] in O1. rewrite (IH _ t2); [cbn [i_points i_cross i_files]; rewrite <- app_assoc; reflexivity|exact O3| |].
  - clear - O3. assert (X : forall l x, ordered (x :: l) -> Forall (fun y : Z * Z => fst x <= fst y) (x :: l)). { induction l as [|y l IH]; intros x O; [constructor; [lia|constructor]|]. destruct O as (A & _ & B). constructor; [lia|]. eapply Forall_impl; [|apply (IH y B)]. intros z Q. cbv beta in Q. lia. } apply (X pts (t2, v2) O3).
  - cbn [i_points]. apply Forall_app. split; [eapply Forall_impl; [|exact F2]; intros x X; cbv beta in X; lia|]. constructor; [cbn [fst]; lia|constructor].
Qed.
Lemma index_laid a r gs cs : Forall2 (taken a r) gs cs -> forall e i, laid e cs -> Forall (fun x : Z * Z => fst x < e) (i_points i) -> Forall (fun f => f < e) (i_files i) ->
  fold_left index_step (fill_ops e gs) i = mkindex (i_points i ++ flat_map c_points cs) (i_cross i) (i_files i ++ fstarts e cs).
Proof.
  induction 1 as [|g c gs cs H F2 IH]; intros e i L P Q; [cbn [fill_ops fold_left flat_map fstarts]; rewrite !app_nil_r; destruct i; reflexivity|]. destruct H as (H1 & H2 & _). destruct L as (L1 & L2 & L3 & _ & L4).
  assert (EC : e < c_stop c) by (rewrite Forall_forall in L2; pose proof (L2 _ (last_in _ (0, 0) L1)); lia).
  cbn [fill_ops fold_left]. rewrite fold_left_app, H1. cbn [index_step]. rewrite (points_last _ _ e L3); [|eapply Forall_impl; [|exact L2]; intros x X; cbv beta in X; lia|exact P]. cbn [i_points i_cross i_files]. rewrite H2, set_insert_last by exact Q.
  rewrite IH; [cbn [i_points i_cross i_files flat_map fstarts]; rewrite <- !app_assoc; reflexivity|exact L4| |].
  - cbn [i_points]. apply Forall_app. split; [eapply Forall_impl; [|exact P]; intros x X; cbv beta in X; lia|eapply Forall_impl; [|exact L2]; intros x X; cbv beta in X; lia].
  - cbn [i_files]. apply Forall_app. split; [eapply Forall_impl; [|exact Q]; intros x X; cbv beta in X; lia|constructor; [exact EC|constructor]].
Qed.
Lemma laid_order a r gs cs : Forall2 (taken a r) gs cs -> forall e, laid e cs -> in_order e gs.
Proof.
  induction 1 as [|g c gs cs H F2 IH]; intros e L; [exact Logic.I|]. destruct H as (H1 & H2 & _). destruct L as (L1 & L2 & L3 & _ & L4). cbn [in_order]. rewrite H1, H2. split; [rewrite Forall_forall in L2; pose proof (L2 _ (last_in _ (0, 0) L1)); lia|]. split; [|apply IH; exact L4].
  apply Forall_forall. intros o O. apply in_map_iff in O. destruct O as (x & <- & X). rewrite Forall_forall in L2. specialize (L2 x X). cbn [is_point op_time]. lia.
Qed.
Lemma laid_sorted cs : forall e, laid e cs -> sorted (flat_map c_points cs) /\ Forall (fun x => e <= fst x) (flat_map c_points cs).
Proof.
  induction cs as [|c r IH]; intros e L; [split; [exact Logic.I|constructor]|]. destruct L as (L1 & L2 & L3 & _ & L4). destruct (IH _ L4) as (S & G). cbn [flat_map].
  assert (EC : e < c_stop c) by (rewrite Forall_forall in L2; pose proof (L2 _ (last_in _ (0, 0) L1)); lia). split.
  - apply sorted_app. split; [|split; [exact S|]].
    + clear - L3. induction (c_points c) as [|x l IH]; [exact Logic.I|]. destruct l as [|y l]; [destruct x; cbn [sorted]; split; [constructor|exact Logic.I]|]. destruct L3 as (A & _ & B). specialize (IH B). destruct x as (k & v), y as (k2 & v2). cbn [sorted]. cbn [sorted] in IH. cbn [fst] in A. split; [|exact IH]. constructor; [cbn [fst]; exact A|]. destruct IH as (IH & _). eapply Forall_impl; [|exact IH]. intros z Z0. cbv beta in Z0. lia.
    + intros x y X Y. rewrite Forall_forall in L2, G. pose proof (L2 x X). pose proof (G y Y). lia.
  - apply Forall_app. split; [eapply Forall_impl; [|exact L2]; intros x X; cbv beta in X; lia|eapply Forall_impl; [|exact G]; intros x X; cbv beta in X; lia].
Qed.
Lemma fstarts_sorted cs : forall e, laid e cs -> StronglySorted Z.lt (fstarts e cs).
Proof.
  induction cs as [|c r IH]; intros e L; [constructor|]. pose proof L as L0. destruct L as (L1 & L2 & _ & _ & L4). cbn [fstarts]. constructor; [apply IH; exact L4|]. assert (EC : e < c_stop c) by (rewrite Forall_forall in L2; pose proof (L2 _ (last_in _ (0, 0) L1)); lia).
  pose proof (fstarts_ge (c_stop c) r (c_stop c) L4 (Z.le_refl _)) as G. eapply Forall_impl; [|exact G]. intros x X. cbv beta in X. lia.
Qed.
Lemma laid_group a r gs cs : Forall2 (taken a r) gs cs -> forall e g c t pre post, gs = pre ++ g :: post -> laid e cs -> True -> nth_error cs (length pre) = Some c -> In t (map fst (c_points c)) -> group_at t gs = Some g.
Proof.
  induction 1 as [|g0 c0 gs cs H F2 IH]; intros e g c t pre post Q L _ N I; [destruct pre; discriminate Q|]. destruct L as (L1 & L2 & L3 & _ & L4). destruct H as (_ & H2 & _). destruct pre as [|p pre].
  - cbn [length nth_error app] in *. injection Q as -> ->. injection N as ->. cbn [group_at]. destruct post; [reflexivity|]. apply in_map_iff in I. destruct I as (x & <- & X). rewrite Forall_forall in L2. specialize (L2 x X). rewrite H2. replace (fst x <? c_stop c) with true by lia. reflexivity.
  - cbn [length nth_error app] in *. injection Q as -> ->. cbn [group_at]. destruct (pre ++ g :: post) as [|g1 l] eqn:W; [destruct pre; discriminate W|]. assert (B : c_stop c0 <= t).
    { destruct (laid_sorted _ _ L4) as (_ & G). apply in_map_iff in I. destruct I as (x & <- & X). rewrite Forall_forall in G. apply G. apply in_flat_map. exists c. split; [apply (nth_error_In _ _ N)|exact X]. }
    rewrite H2. replace (t <? c_stop c0) with false by lia. apply (IH (c_stop c0) g c t pre post); [symmetry; exact W|exact L4|exact Logic.I|exact N|exact I].
Qed.
Lemma Forall2_nth_l {A B} (R : A -> B -> Prop) l l' n x : Forall2 R l l' -> nth_error l n = Some x -> exists y, nth_error l' n = Some y /\ R x y.
Proof. intros F. revert n. induction F as [|a b l l' H F IH]; intros n N; [destruct n; discriminate N|]. destruct n as [|n]; [injection N as <-; exists b; split; [reflexivity|exact H]|]. apply (IH n N). Qed.
Lemma Forall2_nth_r {A B} (R : A -> B -> Prop) l l' n y : Forall2 R l l' -> nth_error l' n = Some y -> exists x, nth_error l n = Some x /\ R x y.
Proof. intros F. revert n. induction F as [|a b l l' H F IH]; intros n N; [destruct n; discriminate N|]. destruct n as [|n]; [injection N as <-; exists a; split; [reflexivity|exact H]|]. apply (IH n N). Qed.
Lemma laid_in cs c : In c cs -> forall e, laid e cs -> exists e', Forall (fun x => e' <= fst x < c_stop c /\ 0 <= snd x < 2 ^ 61) (c_points c).
Proof. induction cs as [|c0 r IH]; intros I e L; [destruct I|]. destruct L as (L1 & L2 & _ & _ & L4). destruct I as [->|I]; [exists e; exact L2|apply (IH I _ L4)]. Qed.
Lemma groups_ok s gs cs s' stop composition y rp paths lib id : fresh s -> fill true s gs = Some s' -> shown_as (close s' stop composition) = Some y -> In (rp, paths) (combine (n_reps (y_strm y)) (y_paths y)) ->
  Forall2 (taken (f_audio s) (r_rate rp)) gs cs -> cs <> [] -> laid 0 cs -> Forall (fun c => c_stop c <= stop) cs -> stop < 2 ^ 61 -> 0 <= composition < 2 ^ 61 -> last_orig cs <= composition ->
  Forall (fun c => exists v, lib (c_path c) = Some v /\ cuttable v id (c_track c)) cs ->
  exists l, segments lib id (f_index (close s' stop composition)) paths = Some l /\ map seg_time l = map fst (flat_map c_points cs) /\ flat_map seg_samples l = used cs composition.
Proof.
  intros F E SH IN T NE L W SB CB LO C. pose proof (laid_order _ _ _ _ T 0 L) as O. pose proof F as (F1 & F2 & F3).
  assert (NI : Forall (fun g => g_items g <> []) gs). { apply Forall_forall. intros g G. destruct (In_nth_error _ _ G) as (n & N). destruct (Forall2_nth_l _ _ _ _ _ T N) as (c & _ & (_ & _ & it & I & _)). intros Q. rewrite Q in I. discriminate I. }
  pose proof (fill_index gs true s s' E) as FI. rewrite F3, F2 in FI. specialize (FI O NI ltac:(lia) (fun _ => eq_refl) ltac:(intros t []) (fun _ => F)). rewrite (index_laid _ _ _ _ T 0 _ L) in FI by constructor. cbn [i_points i_cross i_files app] in FI.
  destruct (laid_sorted cs 0 L) as (PS & PG).
  assert (PL : Forall (fun x => fst x < stop) (flat_map c_points cs)). { apply Forall_forall. intros x X. apply in_flat_map in X. destruct X as (c & C1 & C2). rewrite Forall_forall in W. specialize (W c C1). pose proof (laid_in cs c C1 0 L) as Y. destruct Y as (e & Y). rewrite Forall_forall in Y. specialize (Y x C2). lia. }
  assert (IX : f_index (close s' stop composition) = mkindex (flat_map c_points cs ++ [(stop, composition)]) [] (fstarts 0 cs)). { unfold close. cbn [with_index f_index]. rewrite FI. cbn [index_step i_points i_cross i_files]. rewrite put_last by exact PL. reflexivity. }
  rewrite IX. destruct gs as [|g0 gs]; [inversion T; subst cs; contradiction|].
  destruct (publish_ok s g0 gs s' stop composition F E O) as (y' & Y1 & _ & _ & _ & _ & _ & _ & _ & _ & _ & YL & Y); [lia|]. assert (y' = y) by congruence. subst y'. destruct (Y rp paths IN) as (it0 & b0 & I0 & P0 & _).
  destruct O as (O1 & O2 & O3). destruct (starts_keys (f_audio s) (r_rate rp) gs (g_end g0) O3) as (K & KS).
  assert (SP : sorted paths). { rewrite P0. cbn [sorted]. split; [|exact KS]. eapply Forall_impl; [|exact K]. intros x X. cbv beta in X. lia. }
  assert (NP : paths <> []) by (rewrite P0; discriminate).
  apply (segments_ok lib id _ paths stop composition cs 0 []); cbn [i_points i_files]; try assumption; try reflexivity; try lia.
  - apply sorted_app. split; [exact PS|]. split; [cbn [sorted]; split; [constructor|exact Logic.I]|]. intros x z X [<-|[]]. cbn [fst]. rewrite Forall_forall in PL. apply PL. exact X.
  - apply fstarts_sorted. exact L.
  - constructor.
  - apply Forall_forall. intros c CI. rewrite Forall_forall in C. destruct (C c CI) as (v & V1 & V2). exists v. split; [exact V1|]. split; [exact V2|]. apply Forall_forall. intros x X.
    destruct (In_nth_error _ _ CI) as (n & N). destruct (Forall2_nth_r _ _ _ _ _ T N) as (g & G & (_ & _ & it & I & IP)). destruct (nth_error_split _ _ G) as (pre & post & Q & LN).
    assert (GA : group_at (fst x) (g0 :: gs) = Some g) by (apply (laid_group _ _ _ _ T 0 g c (fst x) pre post Q L Logic.I); [rewrite LN; exact N|apply in_map; exact X]).
    destruct (source_ok s (g0 :: gs) s' (r_rate rp) (fst x) g it F E (conj O1 (conj O2 O3))) as (b' & B1 & B2); [constructor; [congruence|constructor]|exact GA|exact I|].
    destruct (fill_paths s g0 gs s' F E (conj O1 (conj O2 O3)) _ _ I0) as (b2 & B3 & B4 & _). assert (b2 = b') by congruence. subst b2. rewrite B4, <- P0 in B2. rewrite (path_in_force paths (fst x) SP NP) in B2. congruence.
Qed.
(** * a point which crosses two files *)
Lemma before_cross ops paths a t va lib id v k : next_point a t ops -> last_added a ops = Some va -> last_added t ops = Some (- 2 ^ 63) -> ~ file_between a t ops -> 0 <= a < 2 ^ 62 -> 0 <= va < 2 ^ 62 -> sorted paths -> paths <> [] ->
  lib (in_force paths a) = Some v -> cuttable v id k -> exists j b, job_at (build ops) paths (a, va) = Some j /\ segment lib id j = Some (a, between k va (2 ^ 63), b).
Proof.
  intros N A T F AB VB S NP L C. pose proof (proj2 (end_ok ops a t va (- 2 ^ 63) N A T) F) as E. unfold job_at. cbn [fst snd]. rewrite E. replace (va =? CROSS_POINT_TIME) with false by (unfold CROSS_POINT_TIME; lia). rewrite path_at by assumption. rewrite !u64_small by lia.
  assert (U : SampleTab_model.u64 (- 2 ^ 63) = 2 ^ 63) by reflexivity. rewrite U. destruct (part_ok lib id a (in_force paths a) v k va (2 ^ 63) L C ltac:(lia)) as (b & B).
  exists (mkJob a [mkPart (in_force paths a) va (2 ^ 63)]), (if b =? U64MAX then U64MAX else b). split; [reflexivity|]. unfold segment. cbn [j_time j_parts parts_frames]. rewrite B, app_nil_r. reflexivity.
Qed.
Lemma at_cross ops paths t b vb o t2 o2 lib id v1 k1 v2 k2 : next_point t b ops -> last_added t ops = Some (- 2 ^ 63) -> last_added b ops = Some vb -> file_between t b ops -> get t (i_cross (build ops)) = Some (mkcross t o t2 o2) ->
  0 <= t -> t <= t2 < 2 ^ 62 -> b < 2 ^ 62 -> 0 <= o < 2 ^ 62 -> 0 <= o2 < 2 ^ 62 -> sorted paths -> paths <> [] ->
  lib (in_force paths t) = Some v1 -> cuttable v1 id k1 -> lib (in_force paths t2) = Some v2 -> cuttable v2 id k2 ->
  exists j base, job_at (build ops) paths (t, - 2 ^ 63) = Some j /\ segment lib id j = Some (t, between k1 o (o + (t2 - t)) ++ between k2 o2 (2 ^ 63 + (b - t)), base).
Proof.
  intros N T B F G T0 T2 BB OB O2B S NP L1 C1 L2 C2. pose proof (proj1 (end_ok ops t b (- 2 ^ 63) vb N T B) F) as E. unfold job_at. cbn [fst snd]. rewrite E. change (- 2 ^ 63 =? CROSS_POINT_TIME) with true. cbv iota. rewrite G. cbn [c_time2 c_time c_orig c_orig2]. rewrite !path_at by assumption.
  destruct N as (_ & _ & TB & _). replace (SampleTab_model.u64 (- 2 ^ 63 + (b - t))) with (2 ^ 63 + (b - t)) by (unfold SampleTab_model.u64; rewrite <- (Z.mod_add _ 1) by lia; rewrite Z.mod_small; lia). rewrite !u64_small by lia. replace (o + t2 - t) with (o + (t2 - t)) by lia.
  destruct (part_ok lib id t (in_force paths t) v1 k1 o (o + (t2 - t)) L1 C1 ltac:(lia)) as (b1 & P1). destruct (part_ok lib id t (in_force paths t2) v2 k2 o2 (2 ^ 63 + (b - t)) L2 C2 ltac:(lia)) as (b2 & P2).
  exists (mkJob t [mkPart (in_force paths t) o (o + (t2 - t)); mkPart (in_force paths t2) o2 (2 ^ 63 + (b - t))]). eexists. split; [reflexivity|]. unfold segment. cbn [j_time j_parts parts_frames]. rewrite P1, P2, app_nil_r. reflexivity.
Qed.
Lemma between_in k a b x : In x (between k a b) <-> In x (samples_of k) /\ a <= presented k x < b.
Proof. unfold between. rewrite filter_In, Bool.andb_true_iff, Z.leb_le, Z.ltb_lt. reflexivity. Qed.
(** * base times *)
Lemma all_some_nth {A} (l : list (option A)) r n x : all_some l = Some r -> nth_error r n = Some x -> nth_error l n = Some (Some x).
Proof.
  revert r n. induction l as [|[a|] l IH]; intros r n E N; cbn [all_some] in E; [assert (r = []) by congruence; subst; destruct n; discriminate N| |discriminate E].
  destruct (all_some l) as [r'|]; [|discriminate E]. assert (r = a :: r') by congruence. subst r. destruct n as [|n]; [cbn [nth_error] in *; congruence|]. apply (IH r' n eq_refl N).
Qed.
Lemma nth_removelast {A} (l : list A) n x : nth_error (removelast l) n = Some x -> nth_error l n = Some x.
Proof. destruct (rev l) as [|y r] eqn:E. { apply (f_equal (@rev A)) in E. rewrite rev_involutive in E. subst l. destruct n; discriminate. } apply (f_equal (@rev A)) in E. rewrite rev_involutive in E. cbn [rev] in E. subst l. rewrite removelast_last. intros N. rewrite nth_error_app1; [exact N|]. apply nth_error_Some. congruence. Qed.
Lemma base_ok lib id i paths l n s t v vv k x r : segments lib id i paths = Some l -> nth_error l n = Some s -> nth_error (i_points i) n = Some (t, v) -> v <> - 2 ^ 63 -> 0 <= t < 2 ^ 62 -> sorted paths -> paths <> [] ->
  lib (in_force paths t) = Some vv -> nth_error (v_tracks vv) id = Some k -> seg_samples s = x :: r -> 0 <= s_comp x - decoded_at k x <= t -> seg_time s = t /\ seg_base s + (s_comp x - decoded_at k x) = t.
Proof.
  intros E N P V T S NP L K X D. unfold segments in E. destruct (jobs i paths) as [js|] eqn:J; [|discriminate E]. pose proof (all_some_nth _ _ _ _ E N) as M. rewrite nth_error_map in M. destruct (nth_error js n) as [j|] eqn:JN; [|discriminate M]. cbn [option_map] in M. assert (SG : segment lib id j = Some s) by congruence.
  pose proof (all_some_nth _ _ _ _ J JN) as Q. rewrite nth_error_map in Q. destruct (nth_error (removelast (i_points i)) n) as [y|] eqn:RN; [|discriminate Q]. pose proof (nth_removelast _ _ _ RN) as RN2. assert (y = (t, v)) by congruence. subst y. cbn [option_map] in Q. assert (JA : job_at i paths (t, v) = Some j) by congruence. clear Q M.
  unfold job_at in JA. cbn [fst snd] in JA. destruct (index_end i t) as [e| |]; [|discriminate JA|discriminate JA]. replace (v =? CROSS_POINT_TIME) with false in JA by (unfold CROSS_POINT_TIME; lia). rewrite path_at in JA by assumption. rewrite u64_small in JA by lia.
  match type of JA with Some ?w = _ => assert (W : j = w) by congruence end. subst j. unfold segment in SG. cbn [j_time j_parts parts_frames] in SG. unfold part_frames in SG. cbn [pt_path pt_start pt_end] in SG. rewrite L in SG.
  destruct (add_frames _ _ _ _ _ _ _) as [(fl & b)|] eqn:A; [|discriminate SG]. rewrite app_nil_r in SG. assert (W : s = (t, fl, if b =? U64MAX then U64MAX else b)) by congruence. subst s. cbn [seg_time seg_samples seg_base fst snd] in *. subst fl. split; [reflexivity|].
  pose proof (piece_base _ _ _ _ k _ _ _ _ _ _ K A) as PB. cbv zeta in PB. replace (t =? 2 ^ 64 - 1) with false in PB by lia. specialize (PB D ltac:(lia)). destruct (Z.eqb_spec b U64MAX) as [QB|]; [rewrite QB in PB|]; exact PB.
Qed.
