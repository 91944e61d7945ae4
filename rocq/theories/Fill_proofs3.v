From Coq Require Import Sorted.
From Verif Require Import Util Points_model Points_proofs Points_proofs2 Pres_model Pres_proofs3 Smooth_model Smooth_proofs Fill_model Fill_proofs Fill_proofs2.
Local Open Scope Z_scope.

(** * what is shown *)
Lemma all_rep (m : zmap (option bitrate)) : (forall r, ~ In (r, None) m) ->
  exists l, all_some (map rep_of m) = Some l /\ map (fun x => r_rate (fst x)) l = map fst m /\
    forall rp p, In (rp, p) l <-> exists b, In (r_rate rp, Some b) m /\ rp = mkRep (r_rate rp) (b_width b) (b_height b) (b_private b) /\ p = b_paths b.
Proof.
  induction m as [|(r & o) m IH]; intros N.
  - exists []. split; [reflexivity|]. split; [reflexivity|]. intros rp p. split; [intros []|]. intros (b & [] & _).
  - destruct o as [b|]; [|exfalso; apply (N r); left; reflexivity]. destruct IH as (l & E & M & H); [intros r' X; apply (N r'); right; exact X|].
    exists ((mkRep r (b_width b) (b_height b) (b_private b), b_paths b) :: l). split; [cbn [map rep_of all_some]; rewrite E; reflexivity|]. split; [cbn [map fst r_rate]; rewrite M; reflexivity|].
    intros rp p. split.
    + intros [Q|X]; [injection Q as <- <-; exists b; split; [left; reflexivity|split; reflexivity]|]. apply H in X. destruct X as (b' & X & Y). exists b'. split; [right; exact X|exact Y].
    + intros (b' & [Q|X] & Y & Y2); [left; injection Q as Q1 Q2; rewrite Y, Y2, <- Q2, <- Q1; reflexivity|]. right. apply H. exists b'. split; [exact X|]. split; assumption.
Qed.
Lemma combine_maps {A B} (l : list (A * B)) : combine (map fst l) (map snd l) = l.
Proof. induction l as [|(a & b) l IH]; [reflexivity|]. cbn [map combine fst snd]. rewrite IH. reflexivity. Qed.
Lemma shown_ok s : sorted (f_rates s) -> (forall r, get r (f_rates s) <> Some None) ->
  exists y, shown_as s = Some y /\ n_name (y_strm y) = f_name s /\ n_audio (y_strm y) = f_audio s /\ n_id (y_strm y) = f_id s /\ n_points (y_strm y) = i_points (f_index s) /\ y_cross y = i_cross (f_index s) /\
    length (y_paths y) = length (n_reps (y_strm y)) /\ map r_rate (n_reps (y_strm y)) = map fst (f_rates s) /\
    forall rp p, In (rp, p) (combine (n_reps (y_strm y)) (y_paths y)) <-> exists b, get (r_rate rp) (f_rates s) = Some (Some b) /\ rp = mkRep (r_rate rp) (b_width b) (b_height b) (b_private b) /\ p = b_paths b.
Proof.
  intros S N. destruct (all_rep (f_rates s)) as (l & E & M & H). { intros r X. apply get_in in X; [|exact S]. exact (N r X). }
  unfold shown_as. rewrite E. eexists. split; [reflexivity|]. cbn [y_strm n_name n_audio n_id n_points y_cross y_paths n_reps]. do 5 (split; [reflexivity|]). split; [rewrite !map_length; reflexivity|]. split; [rewrite map_map; exact M|].
  intros rp p. rewrite combine_maps. rewrite H. split; intros (b & X & Y); exists b; (split; [|exact Y]); apply (get_in _ _ _ S); exact X.
Qed.

(** * the index *)
Definition fair (o : index_op) : Prop := match o with Add _ c => c <> CROSS_POINT_TIME | _ => True end.
Definition index_good (i : index) : Prop := sorted (i_points i) /\ sorted (i_cross i) /\ forall t, get t (i_points i) = Some CROSS_POINT_TIME -> get t (i_cross i) <> None.
Lemma step_good i o : fair o -> index_good i -> index_good (index_step i o).
Proof.
  intros F (A & B & C). destruct o as [t c|t|t c t2 c2]; unfold index_good; cbn [index_step i_points i_cross].
  - split; [apply put_sorted; exact A|]. split; [exact B|]. intros u. destruct (Z.eq_dec u t) as [->|NE]; [rewrite get_put_same; intros Q; exfalso; apply F; congruence|rewrite get_put_other by exact NE; apply C].
  - split; [exact A|]. split; [exact B|exact C].
  - split; [apply put_sorted; exact A|]. split; [apply put_sorted; exact B|]. intros u. destruct (Z.eq_dec u t) as [->|NE]; [rewrite !get_put_same; discriminate|rewrite !get_put_other by exact NE; apply C].
Qed.
Lemma steps_good ops : forall i, Forall fair ops -> index_good i -> index_good (fold_left index_step ops i).
Proof. induction ops as [|o ops IH]; intros i F G; [exact G|]. cbn [fold_left]. inversion_clear F. apply IH; [assumption|]. apply step_good; assumption. Qed.

(** * filling *)
Lemma fill_rates gs : forall s s', fill false s gs = Some s' -> sorted (f_rates s) -> (forall r, get r (f_rates s) <> Some None) -> index_good (f_index s) -> Forall (fun g => Forall fair (g_points g)) gs ->
  sorted (f_rates s') /\ (forall r, get r (f_rates s') <> Some None) /\ (forall r, get r (f_rates s') <> None <-> get r (f_rates s) <> None) /\ index_good (f_index s') /\
  f_audio s' = f_audio s /\ f_id s' = f_id s /\ f_name s' = f_name s.
Proof.
  induction gs as [|g gs IH]; intros s s' E S N G F; cbn [fill] in E.
  - assert (Q : s' = s) by congruence. subst s'. split; [exact S|]. split; [exact N|]. split; [intros r; reflexivity|]. split; [exact G|]. repeat split; reflexivity.
  - unfold begin_processing in E. destruct (add_group s (g_items g)) as [s1|] eqn:A; [|discriminate E]. pose proof (add_group_get _ _ _ A) as GG. destruct (add_group_ok _ _ _ A) as (s2 & A1 & A2 & A3 & A4 & A5 & A6 & A7 & A8).
    inversion_clear F. assert (G1 : index_good (f_index s1)) by (unfold index_good; rewrite A7, A8; exact G).
    destruct (IH (add_points s1 g) s' E) as (R1 & R2 & R3 & R4 & R5 & R6 & R7).
    + cbn [add_points with_end with_index f_rates]. rewrite A2. apply (add_files_ok _ _ _ A1). exact S.
    + cbn [add_points with_end with_index f_rates]. intros r. rewrite GG. pose proof (N r) as X. destruct (get r (f_rates s)) as [[b|]|]; [discriminate|contradiction|discriminate].
    + cbn [add_points with_end with_index f_index]. apply steps_good; assumption.
    + assumption.
    + split; [exact R1|]. split; [exact R2|]. split; [|split; [exact R4|cbn [add_points with_end with_index f_audio f_id f_name] in R5, R6, R7; rewrite R5, R6, R7; repeat split; assumption]].
      intros r. rewrite R3. cbn [add_points with_end with_index f_rates]. rewrite GG. destruct (get r (f_rates s)) as [[b|]|]; split; intros X; try exact X; discriminate.
Qed.
Lemma fill_good s g gs s' : fresh s -> fill true s (g :: gs) = Some s' -> Forall (fun g => Forall fair (g_points g)) (g :: gs) ->
  sorted (f_rates s') /\ (forall r, get r (f_rates s') <> Some None) /\ (forall r, get r (f_rates s') <> None <-> file_of (f_audio s) r (g_items g) <> None) /\ index_good (f_index s') /\
  f_audio s' = f_audio s /\ f_id s' = f_id s /\ f_name s' = f_name s.
Proof.
  intros F E H. cbn [fill] in E. destruct (begin_processing true s (g_items g)) as [s1|] eqn:B; [|discriminate E]. inversion_clear H. rename H0 into F1. rename H1 into F2.
  destruct (begin_first s _ s1 F B) as (S & E1 & E2 & E3 & E4 & E5 & E6 & E7 & E8).
  destruct (fill_rates gs (add_points s1 g) s' E) as (R1 & R2 & R3 & R4 & R5 & R6 & R7).
  - exact S.
  - intros r. cbn [add_points with_end with_index f_rates]. destruct (file_of (f_audio s) r (g_items g)) as [it|] eqn:I; [destruct (E7 r it I) as (b & X & _); rewrite X; discriminate|rewrite (E8 r I); discriminate].
  - cbn [add_points with_end with_index f_index]. apply steps_good; [exact F1|]. unfold index_good. rewrite E5, E6. split; [exact Logic.I|]. split; [exact Logic.I|]. intros t X. discriminate X.
  - exact F2.
  - split; [exact R1|]. split; [exact R2|]. split; [|split; [exact R4|cbn [add_points with_end with_index f_audio f_id f_name] in R5, R6, R7; rewrite R5, R6, R7; repeat split; assumption]].
    intros r. rewrite R3. cbn [add_points with_end with_index f_rates]. destruct (file_of (f_audio s) r (g_items g)) as [it|] eqn:I; [destruct (E7 r it I) as (b & X & _); rewrite X; split; discriminate|rewrite (E8 r I); split; intros X; exfalso; apply X; reflexivity].
Qed.
Lemma keys_sorted {A} (m : zmap A) : sorted m -> StronglySorted Z.lt (map fst m).
Proof.
  induction m as [|(k & v) m IH]; intros S; [constructor|]. cbn [map fst]. destruct S as (S1 & S2). constructor; [apply IH; exact S2|]. apply Forall_forall. intros x X. apply in_map_iff in X. destruct X as (y & <- & Y). rewrite Forall_forall in S1. apply (S1 y Y).
Qed.
Lemma put_nonempty {A} k (v : A) m : put k v m <> [].
Proof. destruct m as [|(a & b) m]; [discriminate|]. cbn [put]. destruct (k <? a); [discriminate|]. destruct (k =? a); discriminate. Qed.
Lemma starts_paths a r gs : forall e, Forall (fun x => exists g it, In g gs /\ In it (g_items g) /\ snd x = it_path it) (starts a r e gs).
Proof.
  induction gs as [|g gs IH]; intros e; [constructor|]. cbn [starts]. destruct (file_of a r (g_items g)) as [it|] eqn:F.
  - apply file_of_in in F. constructor; [exists g, it; split; [left; reflexivity|split; [apply F|reflexivity]]|]. eapply Forall_impl; [|apply IH]. intros x (g' & it' & X & Y). exists g', it'. split; [right; exact X|exact Y].
  - eapply Forall_impl; [|apply IH]. intros x (g' & it' & X & Y). exists g', it'. split; [right; exact X|exact Y].
Qed.
Lemma close_rates s a b : f_rates (close s a b) = f_rates s. Proof. reflexivity. Qed.
Lemma in_order_fair gs : forall e, in_order e gs -> Forall (fun g => Forall fair (g_points g)) gs.
Proof. induction gs as [|g gs IH]; intros e O; [constructor|]. destruct O as (_ & O2 & O3). constructor; [|apply (IH _ O3)]. eapply Forall_impl; [|exact O2]. intros o (P & _). destruct o; exact P || exact Logic.I. Qed.
Lemma unknown_none gs : forall s s' g it, fill false s gs = Some s' -> In g gs -> In it (g_items g) -> get (rate_of (f_audio s) it) (f_rates s) <> None.
Proof.
  induction gs as [|g0 gs IH]; intros s s' g it E I J; [destruct I|]. cbn [fill] in E. unfold begin_processing in E. destruct (add_group s (g_items g0)) as [s1|] eqn:A; [|discriminate E].
  pose proof (add_group_get _ _ _ A) as GG. destruct (add_group_ok _ _ _ A) as (s2 & A1 & A2 & A3 & A4 & A5 & A6 & A7 & A8). destruct I as [<-|I].
  - destruct (add_files_all _ _ _ A1 it J) as (b & B). rewrite B. discriminate.
  - pose proof (IH _ _ g it E I J) as X. cbn [add_points with_end with_index f_rates f_audio] in X. rewrite A4, GG in X. destruct (get (rate_of (f_audio s) it) (f_rates s)) as [[b|]|]; [discriminate|discriminate|exact X].
Qed.
Lemma file_of_iff a r l : file_of a r l <> None <-> exists it, In it l /\ rate_of a it = r.
Proof.
  split.
  - intros H. destruct (file_of a r l) as [it|] eqn:Q; [|contradiction]. exists it. apply file_of_in. exact Q.
  - intros (it & I & <-). destruct (file_of_some a l it I) as (x & Q). rewrite Q. discriminate.
Qed.
Lemma fill_unknown s g gs g' it : fresh s -> In g' gs -> In it (g_items g') -> (forall it', In it' (g_items g) -> rate_of (f_audio s) it' <> rate_of (f_audio s) it) -> fill true s (g :: gs) = None.
Proof.
  intros F I J N. destruct (fill true s (g :: gs)) as [s'|] eqn:E; [|reflexivity]. exfalso. cbn [fill] in E. destruct (begin_processing true s (g_items g)) as [s1|] eqn:B; [|discriminate E].
  destruct (begin_first s _ s1 F B) as (_ & _ & E2 & _ & _ & _ & _ & _ & E8). pose proof (unknown_none _ _ _ _ _ E I J) as X. cbn [add_points with_end with_index f_rates f_audio] in X. rewrite E2 in X. apply X. apply E8.
  destruct (file_of (f_audio s) (rate_of (f_audio s) it) (g_items g)) as [it'|] eqn:Q; [|reflexivity]. apply file_of_in in Q. destruct (N it' (proj1 Q) (proj2 Q)).
Qed.
Lemma begin_audio s h t s1 : fresh s -> f_audio s = true -> begin_processing true s (h :: t) = Some s1 -> Forall (fun it => it_audio it = it_audio h) t.
Proof.
  intros (R0 & I0 & E0) A E. unfold begin_processing in E. cbn [add_rates] in E. destruct (add_rest _ t) as [s0|] eqn:B; [|discriminate E]. destruct (add_rest_ok _ _ _ B) as (_ & _ & S3 & _). specialize (S3 A). subst s0.
  destruct (add_group_ok _ _ _ E) as (s2 & F1 & _). apply Forall_forall. intros it I. destruct (add_files_all _ _ _ F1 it (or_intror I)) as (b & X). cbn [with_rates f_rates f_audio] in X. rewrite R0 in X. cbn [put get] in X. unfold rate_of in X. rewrite A in X.
  destruct (Z.eqb_spec (it_audio it) (it_audio h)); [assumption|discriminate X].
Qed.
Lemma publish_ok s g gs s' stop composition : fresh s -> fill true s (g :: gs) = Some s' -> in_order 0 (g :: gs) -> composition <> - 2 ^ 63 ->
  exists y, shown_as (close s' stop composition) = Some y /\ n_name (y_strm y) = f_name s /\ n_audio (y_strm y) = f_audio s /\ n_id (y_strm y) = f_id s /\
    StronglySorted Z.lt (map r_rate (n_reps (y_strm y))) /\ (forall r, In r (map r_rate (n_reps (y_strm y))) <-> file_of (f_audio s) r (g_items g) <> None) /\
    n_points (y_strm y) <> [] /\ sorted (n_points (y_strm y)) /\ sorted (y_cross y) /\ (forall t, In (t, CROSS_POINT_TIME) (n_points (y_strm y)) -> exists c, In (t, c) (y_cross y)) /\
    length (y_paths y) = length (n_reps (y_strm y)) /\
    forall rp p, In (rp, p) (combine (n_reps (y_strm y)) (y_paths y)) -> exists it b, file_of (f_audio s) (r_rate rp) (g_items g) = Some it /\ p = (0, it_path it) :: starts (f_audio s) (r_rate rp) (g_end g) gs /\
      made s (g_items g) (r_rate rp) b /\ rp = mkRep (r_rate rp) (b_width b) (b_height b) (b_private b).
Proof.
  intros F E O C. pose proof (in_order_fair _ _ O) as H. destruct (fill_good s g gs s' F E H) as (R1 & R2 & R3 & R4 & R5 & R6 & R7).
  destruct (shown_ok (close s' stop composition) R1 R2) as (y & Y1 & Y2 & Y3 & Y4 & Y5 & Y6 & Y7 & Y8 & Y9). exists y. split; [exact Y1|]. cbn [close with_index f_name f_audio f_id f_rates] in Y2, Y3, Y4, Y8, Y9.
  split; [congruence|]. split; [congruence|]. split; [congruence|]. split; [rewrite Y8; apply keys_sorted; exact R1|]. split; [intros r; rewrite Y8, <- R3; apply get_key|].
  assert (G : index_good (f_index (close s' stop composition))) by (cbn [close with_index f_index]; apply step_good; [exact C|exact R4]).
  split; [rewrite Y5; cbn [close with_index f_index index_step i_points]; apply put_nonempty|]. rewrite Y5, Y6. destruct G as (G1 & G2 & G3). split; [exact G1|]. split; [exact G2|]. split; [|split; [exact Y7|]].
  - intros t T. apply get_in in T; [|exact G1]. specialize (G3 t T). destruct (get t (i_cross (f_index (close s' stop composition)))) as [c|] eqn:Q; [|contradiction]. exists c. apply get_in; [exact G2|exact Q].
  - intros rp p X. apply Y9 in X. destruct X as (b & X1 & X2 & X3). assert (I : file_of (f_audio s) (r_rate rp) (g_items g) <> None) by (apply R3; rewrite X1; discriminate).
    destruct (file_of (f_audio s) (r_rate rp) (g_items g)) as [it|] eqn:Q; [|contradiction]. destruct (fill_paths s g gs s' F E O (r_rate rp) it Q) as (b' & B1 & B2 & B3). assert (b' = b) by congruence. subst b'.
    exists it, b. split; [reflexivity|]. split; [congruence|]. split; assumption.
Qed.
