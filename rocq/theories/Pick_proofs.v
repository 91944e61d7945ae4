(** Proofs about Pick_model. *)
From Coq Require Import Sorted Permutation ZifyBool ZifyNat.
From Verif Require Import Util SampleTab_model SampleTab_proofs TimeTab_model Walk_model Walk_proofs Cut_model Cut_proofs AutoDec_model AutoDec_proofs Pick_model.
Local Open Scope Z_scope.

(** ** The loops *)
Lemma step_cases : forall r, readable r ->
  (exists i x r1, next r = (r1, Some (i, x, true)) /\ readable r1 /\ length (r_streams r1) = length (r_streams r) /\ (i < length (r_streams r))%nat /\ remaining r = S (remaining r1))
  \/ (exists r1, next r = (r1, None) /\ remaining r = 0%nat).
Proof.
  intros r R. destruct (some_pick_dec (r_streams r)) as [E|N].
  - left. destruct (next_some r R E) as (i & st & x & H1 & H2 & H3 & _). eexists i, x, _. split; [exact H3|]. split; [apply (readable_next r i st x _ R H1 H2)|]. cbn [r_streams].
    split; [apply set_stream_length|]. split; [apply nth_error_Some; congruence|]. unfold remaining. cbn [r_streams]. apply (rem_set _ _ _ _ _ H1 H2).
  - right. destruct (next_none r N) as (l & H). eexists. split; [exact H|]. unfold remaining. pose proof (no_pick_rest _ N) as Q. clear -Q. induction (r_streams r) as [|st ss IH]; [reflexivity|]. cbn [map]. rewrite (Q st (or_introl eq_refl)). cbn. apply IH. intros st' I. apply Q. right. exact I.
Qed.
Definition all_true (flags : list bool) : Prop := forallb (fun b => b) flags = true.
Lemma set_flag_all : forall flags i b, all_true flags -> (i < length flags)%nat -> forallb (fun b => b) (set_flag i b flags) = b /\ length (set_flag i b flags) = length flags.
Proof.
  unfold all_true. induction flags as [|f flags IH]; intros i b A H; [cbn in H; lia|]. cbn [forallb] in A. apply andb_true_iff in A as [-> A]. destruct i as [|i]; cbn [set_flag forallb length].
  - rewrite A. split; [apply andb_true_r|reflexivity].
  - destruct (IH i b A) as [E1 E2]; [cbn in H; lia|]. rewrite E1, E2. split; reflexivity.
Qed.
Definition stops (end_ : Z) (p : nat * sample) : bool := negb (goes_on end_ (snd p)).
Definition mine (stream : Z) (p : nat * sample) : bool := wanted stream (fst p).
Lemma pick_walk : forall n r flags stream end_, readable r -> (remaining r < n)%nat -> all_true flags -> length flags = length (r_streams r) ->
  exists l r', walk n r = Some (l, r') /\ pick_loop n r flags stream end_ = Some (through (stops end_) (filter (mine stream) l)).
Proof.
  intros n. induction n as [|n IH]; intros r flags stream end_ R L A LF; [lia|]. rewrite walk_S. cbn [pick_loop]. destruct (step_cases r R) as [(i & x & r1 & E & R1 & L1 & I & RM)|(r1 & E & RM)]; rewrite E.
  - assert (W : forall fl, all_true fl -> length fl = length (r_streams r) -> exists l r', walk n r1 = Some (l, r') /\ pick_loop n r1 fl stream end_ = Some (through (stops end_) (filter (mine stream) l))).
    { intros fl F1 F2. apply IH; [exact R1|lia|exact F1|congruence]. }
    destruct (set_flag_all flags i (goes_on end_ x) A) as [S1 S2]; [lia|].
    destruct (W flags A LF) as (l & r' & W1 & W2). rewrite W1. exists ((i, x) :: l), r'. split; [reflexivity|]. cbn [filter]. unfold mine at 1. cbn [fst]. destruct (wanted stream i); [|exact W2].
    rewrite S1. cbn [through]. unfold stops at 1. cbn [snd]. destruct (goes_on end_ x) eqn:G; cbn [negb].
    + destruct (W (set_flag i true flags)) as (l2 & r2 & V1 & V2); [exact S1|congruence|]. rewrite W1 in V1. injection V1 as <- <-. rewrite V2. reflexivity.
    + reflexivity.
  - eexists [], _. split; [reflexivity|]. reflexivity.
Qed.
Definition late (ms : option sample) (l : list (nat * sample)) : option sample := match rev l with [] => ms | p :: _ => Some (snd p) end.
Lemma late_cons : forall ms i x l, late ms ((i, x) :: l) = late (Some x) l.
Proof. intros ms i x l. unfold late. cbn [rev]. destruct (rev l) as [|p q]; reflexivity. Qed.
Definition ending (ms : option sample) (l : list (nat * sample)) (own : list (nat * sample)) (end_ : Z) : collected :=
  if existsb (stops end_) own then Times (map (fun p => s_comp (snd p)) (through (stops end_) own))
  else match late ms l with Some x => Times (map (fun p => s_comp (snd p)) own ++ [s_comp x]) | None => Wild end.
Lemma simul_walk : forall n r ms flags s end_, readable r -> (remaining r < n)%nat -> all_true flags -> length flags = length (r_streams r) ->
  exists l r', walk n r = Some (l, r') /\ simul_loop n r ms flags (Z.of_nat s) end_ = ending ms l (filter (fun p => (fst p =? s)%nat) l) end_.
Proof.
  intros n. induction n as [|n IH]; intros r ms flags s end_ R L A LF; [lia|]. rewrite walk_S. cbn [simul_loop]. destruct (step_cases r R) as [(i & x & r1 & E & R1 & L1 & I & RM)|(r1 & E & RM)]; rewrite E.
  - assert (W : forall fl, all_true fl -> length fl = length (r_streams r) -> exists l r', walk n r1 = Some (l, r') /\ simul_loop n r1 (Some x) fl (Z.of_nat s) end_ = ending (Some x) l (filter (fun p => (fst p =? s)%nat) l) end_).
    { intros fl F1 F2. apply IH; [exact R1|lia|exact F1|congruence]. }
    destruct (set_flag_all flags i (goes_on end_ x) A) as [S1 S2]; [lia|].
    destruct (W flags A LF) as (l & r' & W1 & W2). rewrite W1. exists ((i, x) :: l), r'. split; [reflexivity|]. cbn [filter fst]. replace (Z.of_nat s =? Z.of_nat i) with (i =? s)%nat by (destruct (i =? s)%nat eqn:Q, (Z.of_nat s =? Z.of_nat i) eqn:Q2; lia).
    destruct (i =? s)%nat eqn:Q.
    + rewrite S1. unfold ending. cbn [existsb through]. unfold stops at 1 3. cbn [snd]. rewrite late_cons. destruct (goes_on end_ x) eqn:G; cbn [negb orb].
      * destruct (W (set_flag i true flags)) as (l2 & r2 & V1 & V2); [exact S1|congruence|]. rewrite W1 in V1. injection V1 as <- <-. rewrite V2. unfold ending.
        destruct (existsb (stops end_) (filter (fun p => (fst p =? s)%nat) l)); [reflexivity|]. destruct (late (Some x) l); reflexivity.
      * reflexivity.
    + rewrite W2. unfold ending. rewrite late_cons. reflexivity.
  - eexists [], _. split; [reflexivity|]. cbn. unfold ending. cbn. destruct ms; reflexivity.
Qed.

(** ** Filters *)
Lemma stops_at_end : forall end_ p, 0 <= end_ < 2 ^ 63 -> stops end_ p = at_end end_ (snd p).
Proof.
  intros end_ p H. unfold stops, goes_on, at_end, as_i64. change (2 ^ 63) with 9223372036854775808 in *. rewrite Z.mod_small by (change (2 ^ 64) with 18446744073709551616; lia). replace (end_ <? 9223372036854775808) with true by lia.
  destruct (end_ =? 0) eqn:E; cbn [negb andb]; [rewrite orb_true_r; reflexivity|]. rewrite orb_false_r. destruct (s_dec (snd p) <? end_) eqn:A, (end_ <=? s_dec (snd p)) eqn:B; cbn; lia.
Qed.
Lemma through_ext : forall A (P Q : A -> bool) l, (forall x, P x = Q x) -> through P l = through Q l.
Proof. intros A P Q l H. induction l as [|x l IH]; [reflexivity|]. cbn [through]. rewrite H, IH. reflexivity. Qed.
Lemma through_map : forall A B (f : A -> B) (P : B -> bool) l, map f (through (fun x => P (f x)) l) = through P (map f l).
Proof. intros A B f P l. induction l as [|x l IH]; [reflexivity|]. cbn [through map]. destruct (P (f x)); [reflexivity|]. rewrite IH. reflexivity. Qed.
Lemma through_none : forall A (P : A -> bool) l, (forall x, In x l -> P x = false) -> through P l = l.
Proof. intros A P l H. induction l as [|x l IH]; [reflexivity|]. cbn [through]. rewrite (H x (or_introl eq_refl)). f_equal. apply IH. intros y I. apply H. right. exact I. Qed.
Lemma through_split : forall A (P : A -> bool) a x b, P x = true -> exists c d, a ++ [x] = c ++ d /\ through P (a ++ x :: b) = c.
Proof.
  intros A P a x b H. induction a as [|y a IH].
  - exists [x], []. cbn [app through]. rewrite H. split; reflexivity.
  - cbn [app through]. destruct (P y); [exists [y], (a ++ [x]); split; reflexivity|]. destruct IH as (c & d & E1 & E2). exists (y :: c), d. rewrite E2. split; [cbn; f_equal; exact E1|reflexivity].
Qed.
Lemma mine_all : forall l, filter (mine (-1)) l = l.
Proof. intros l. induction l as [|p l IH]; [reflexivity|]. cbn. rewrite IH. reflexivity. Qed.
Lemma mine_one : forall i l, filter (mine (Z.of_nat i)) l = filter (fun p => (fst p =? i)%nat) l.
Proof. intros i l. apply filter_ext. intros p. unfold mine, wanted. destruct (Z.of_nat i <? 0) eqn:A, (Z.of_nat i =? Z.of_nat (fst p)) eqn:B, (fst p =? i)%nat eqn:C; cbn; lia. Qed.
Lemma rows_of_filter : forall i l, rows_of i l = of_stream i l. Proof. reflexivity. Qed.
Lemma rows_own : forall i (P : nat * sample -> bool) l, filter (fun p => (fst p =? i)%nat) (through P (filter (fun p => (fst p =? i)%nat) l)) = through P (filter (fun p => (fst p =? i)%nat) l).
Proof.
  intros i P l. assert (G : forall m, Forall (fun p : nat * sample => (fst p =? i)%nat = true) m -> filter (fun p => (fst p =? i)%nat) (through P m) = through P m).
  { intros m F. induction F as [|p m H F IH]; [reflexivity|]. cbn [through filter]. destruct (P p); cbn [filter]; rewrite H; [reflexivity|]. f_equal. exact IH. }
  apply G. apply Forall_forall. intros p I. apply filter_In in I. apply I.
Qed.

(** ** The readers *)
Lemma opened_ok : forall ks e, whole ks e -> readable (opened ks e) /\ remaining (opened ks e) = total ks /\ length (r_streams (opened ks e)) = length ks /\ r_last (opened ks e) = 0
  /\ forall i k, nth_error ks i = Some k -> exists st, nth_error (r_streams (opened ks e)) i = Some st /\ rest st = samples_of k.
Proof.
  intros ks e WH. split; [|split; [|split; [|split]]].
  - split; [apply WH|]. cbn [opened r_streams r_mdat_end]. intros st I. apply in_map_iff in I as (k & <- & I). unfold rest. cbn [st_cur st_samples skipn]. apply (samples_inside ks e k WH I).
  - unfold remaining, total, opened. cbn [r_streams]. rewrite map_map. f_equal. apply map_ext. intros k. unfold rest. cbn [st_cur st_samples skipn]. apply samples_length.
  - apply map_length.
  - reflexivity.
  - intros i k H. exists (mkStream (samples_of k) 0). split; [cbn [opened r_streams]; rewrite nth_error_map, H; reflexivity|reflexivity].
Qed.
Lemma nth_combine : forall A B (a : list A) (b : list B) i x y, nth_error a i = Some x -> nth_error b i = Some y -> nth_error (combine a b) i = Some (x, y).
Proof. intros A B. induction a as [|x0 a IH]; intros [|y0 b] [|i] x y H1 H2; cbn in *; try discriminate; [congruence|]. apply IH; assumption. Qed.
Lemma all_some_length : forall A (l : list (option A)) r, all_some l = Some r -> length r = length l.
Proof. induction l as [|o l IH]; intros r E; cbn in E; [injection E as <-; reflexivity|]. destruct o; [|discriminate]. destruct (all_some l) as [r1|] eqn:Q; [|discriminate]. injection E as <-. cbn. f_equal. apply IH. reflexivity. Qed.
Lemma move_ok : forall ks e time id r, whole ks e -> move ks e time id = Some r -> readable r /\ (remaining r <= total ks)%nat /\ length (r_streams r) = length ks /\ r_last r = 0
  /\ forall i k, nth_error ks i = Some k -> exists cur, nth_error (r_streams r) i = Some (mkStream (samples_of k) cur).
Proof.
  intros ks e time id r WH M. unfold move in M. destruct (nth_error ks id) as [k|]; [|discriminate]. destruct (target k time) as [s|]; [|discriminate].
  destruct (decoding_time (k_track k) s) as [d|]; [|discriminate]. destruct (composition_time (k_track k) s) as [c|]; [|discriminate].
  destruct (all_some _) as [pos|] eqn:A; [|discriminate]. injection M as <-. apply all_some_length in A. rewrite map_length in A. split; [|split; [|split; [|split]]].
  - split; [apply WH|]. cbn [r_streams r_mdat_end]. intros st I. apply in_map_iff in I as ((k', p) & <- & I). apply in_combine_l in I. unfold rest. cbn [st_samples st_cur fst snd].
    pose proof (samples_inside ks e k' WH I) as Q. rewrite <- (firstn_skipn p (samples_of k')) in Q. apply Forall_app in Q as (_ & Q). exact Q.
  - unfold remaining. etransitivity; [apply sub_sum|]. cbn [r_streams]. rewrite map_map. unfold total. clear - A. revert pos A. induction ks as [|k' ks IH]; intros [|p pos] L; cbn [length] in L; try lia; [reflexivity|].
    cbn [combine map]. unfold list_sum in *. cbn [fold_right fst snd st_samples]. rewrite samples_length. apply Nat.add_le_mono_l. apply IH. lia.
  - cbn [r_streams]. rewrite map_length, combine_length. lia.
  - reflexivity.
  - intros i k' H. cbn [r_streams]. destruct (nth_error pos i) as [p|] eqn:P; [|apply nth_error_None in P; assert (i < length ks)%nat by (apply nth_error_Some; congruence); lia].
    exists p. rewrite nth_error_map, (nth_combine _ _ _ _ _ _ _ H P). reflexivity.
Qed.
Lemma trues : forall (ks : list trk), all_true (map (fun _ => true) ks).
Proof. intros ks. unfold all_true. induction ks; [reflexivity|]. exact IHks. Qed.

Lemma begins_ok : forall ks visual e start r, whole ks e -> begins ks visual e start r -> readable r /\ (remaining r <= total ks)%nat /\ length (r_streams r) = length ks.
Proof.
  intros ks visual e start r WH [[_ ->]|[_ M]].
  - destruct (opened_ok ks e WH) as (A & B & C & _). split; [exact A|]. split; [lia|exact C].
  - destruct (move_ok _ _ _ _ _ WH M) as (A & B & C & _). auto.
Qed.
Lemma pick_begins : forall n ks visual e start end_ stream r, begins ks visual e start r ->
  pick_samples n ks visual e start end_ stream = option_map (fun rows => (rows, max_distance rows)) (pick_loop n r (map (fun _ => true) ks) stream end_).
Proof. intros n ks visual e start end_ stream r [[-> ->]|[H M]]; unfold pick_samples; [reflexivity|]. replace (0 <? start) with true by lia. rewrite M. reflexivity. Qed.
Lemma pick_order : forall n ks visual e start end_ r, whole ks e -> begins ks visual e start r -> (total ks < n)%nat -> 0 <= end_ < 2 ^ 63 ->
  exists l r', walk n r = Some (l, r') /\ pick_samples n ks visual e start end_ (-1) = Some (through (fun p => at_end end_ (snd p)) l, max_distance (through (fun p => at_end end_ (snd p)) l)).
Proof.
  intros n ks visual e start end_ r WH B T E. destruct (begins_ok _ _ _ _ _ WH B) as (R & RM & LS).
  destruct (pick_walk n r (map (fun _ => true) ks) (-1) end_ R) as (l & r' & W & P); [lia|apply trues|rewrite map_length; congruence|].
  exists l, r'. split; [exact W|]. rewrite (pick_begins _ _ _ _ _ _ _ _ B), P, mine_all. rewrite (through_ext (nat * sample) _ (fun p => at_end end_ (snd p)) l) by (intros p; apply stops_at_end; exact E). reflexivity.
Qed.
Lemma pick_one : forall n ks visual e start end_ r i st, whole ks e -> begins ks visual e start r -> (total ks < n)%nat -> 0 <= end_ < 2 ^ 63 -> nth_error (r_streams r) i = Some st ->
  exists rows, pick_samples n ks visual e start end_ (Z.of_nat i) = Some (rows, max_distance rows) /\ rows = map (fun x => (i, x)) (through (at_end end_) (rest st)).
Proof.
  intros n ks visual e start end_ r i st WH B T E N. destruct (begins_ok _ _ _ _ _ WH B) as (R & RM & LS).
  destruct (pick_walk n r (map (fun _ => true) ks) (Z.of_nat i) end_ R) as (l & r' & W & P); [lia|apply trues|rewrite map_length; congruence|].
  destruct (walk_complete r n R) as (l2 & r2 & W2 & _ & _ & O & _); [lia|]. rewrite W in W2. injection W2 as <- <-.
  eexists. split; [rewrite (pick_begins _ _ _ _ _ _ _ _ B), P; reflexivity|]. rewrite mine_one. specialize (O i st N). unfold of_stream in O. rewrite <- O.
  rewrite (through_ext (nat * sample) _ (fun p => at_end end_ (snd p))) by (intros p; apply stops_at_end; exact E). rewrite <- through_map.
  assert (F : Forall (fun p : nat * sample => fst p = i) (through (fun p : nat * sample => at_end end_ (snd p)) (filter (fun p => (fst p =? i)%nat) l))).
  { rewrite <- rows_own. apply Forall_forall. intros p I. apply filter_In in I as [_ I]. lia. }
  revert F. generalize (through (fun p : nat * sample => at_end end_ (snd p)) (filter (fun p => (fst p =? i)%nat) l)). intros m F. induction F as [|[j x] m H F IH]; [reflexivity|]. cbn [map snd] in *. cbn in H. subst j. f_equal. exact IH.
Qed.
Lemma pick_all : forall n ks visual e start r i st, whole ks e -> begins ks visual e start r -> (total ks < n)%nat -> nth_error (r_streams r) i = Some st ->
  exists rows, pick_samples n ks visual e start 0 (-1) = Some (rows, max_distance rows) /\ rows_of i rows = rest st.
Proof.
  intros n ks visual e start r i st WH B T N. destruct (begins_ok _ _ _ _ _ WH B) as (R & RM & LS). destruct (pick_order n ks visual e start 0 r WH B T) as (l & r' & W & P); [lia|].
  destruct (walk_complete r n R) as (l2 & r2 & W2 & _ & _ & O & _); [lia|]. rewrite W in W2. injection W2 as <- <-.
  rewrite (through_none (nat * sample) (fun p => at_end 0 (snd p)) l) in P by (intros p _; reflexivity). exists l. split; [exact P|]. rewrite rows_of_filter. apply O. exact N.
Qed.

(** ** The largest distance *)
Definition far (m : Z * Z) (row : nat * sample) : Z * Z := let d := u64 (s_comp (snd row) - s_dec (snd row)) in if fst m <? d then (d, s_comp (snd row)) else m.
Lemma distance_fold : forall rows m, Forall (fun row => times_ok (snd row)) rows -> 0 <= fst m ->
  forall f, f = fold_left far rows m ->
  fst m <= fst f /\ (forall row, In row rows -> s_comp (snd row) - s_dec (snd row) <= fst f) /\ (f = m \/ exists row, In row rows /\ s_comp (snd row) - s_dec (snd row) = fst f /\ s_comp (snd row) = snd f).
Proof.
  induction rows as [|row rows IH]; intros m F M f E; cbn [fold_left] in E; [subst f; split; [lia|]; split; [intros r []|left; reflexivity]|].
  pose proof (Forall_inv F) as H. destruct H as ([D1 D2] & D3). assert (U : u64 (s_comp (snd row) - s_dec (snd row)) = s_comp (snd row) - s_dec (snd row)) by (apply u64_id; change (2 ^ 63) with 9223372036854775808 in *; change (2 ^ 64) with 18446744073709551616; lia).
  unfold far at 2 in E. cbv zeta in E. rewrite U in E. destruct (fst m <? s_comp (snd row) - s_dec (snd row)) eqn:Q.
  - destruct (IH (s_comp (snd row) - s_dec (snd row), s_comp (snd row)) (Forall_inv_tail F)) with (f := f) as (A & B & C); [cbn; lia|exact E|]. cbn [fst] in A. split; [lia|]. split.
    + intros r [<-|I]; [exact A|apply B; exact I].
    + right. destruct C as [C|(r & I & C)]; [exists row; rewrite C; split; [left; reflexivity|split; reflexivity]|exists r; split; [right; exact I|exact C]].
  - destruct (IH m (Forall_inv_tail F) M f E) as (A & B & C). split; [exact A|]. split.
    + intros r [<-|I]; [lia|apply B; exact I].
    + destruct C as [C|(r & I & C)]; [left; exact C|right; exists r; split; [right; exact I|exact C]].
Qed.

(** ** Totals *)
Lemma fair_modest : forall l, fair l -> modest l.
Proof. intros l [F B]. split; [exact F|]. intros c I. specialize (B c I). change (2 ^ 63) with 9223372036854775808 in B. change (2 ^ 64) with 18446744073709551616. lia. Qed.
Lemma totals_spec : forall v g l tot m t, (forall c, In c l -> gap v c = g c /\ 0 <= g c <= c /\ c < 2 ^ 63) -> 0 <= tot -> 0 <= m -> (forall d, In d (decs g tot l) -> d < 2 ^ 63) ->
  exists t', totals v false tot (m, t) l = (decs g tot l, (worst m l (decs g tot l), t')).
Proof.
  intros v g. induction l as [|c l IH]; intros tot m t Hg Ht Hm Hd; [exists t; reflexivity|]. cbn [totals decs worst]. destruct (Hg c (or_introl eq_refl)) as (G1 & G2 & G3). rewrite G1. pose proof (Hd (tot + g c) ltac:(left; reflexivity)) as Hb.
  change (2 ^ 63) with 9223372036854775808 in *. rewrite u64_small by (change (2 ^ 64) with 18446744073709551616; lia). set (tt := tot + g c) in *.
  assert (A : as_i64 (tt - c) = tt - c).
  { unfold as_i64. change (2 ^ 63) with 9223372036854775808. change (2 ^ 64) with 18446744073709551616. destruct (Z_le_dec 0 (tt - c)); [rewrite Z.mod_small by lia; replace (tt - c <? 9223372036854775808) with true by lia; reflexivity|].
    rewrite <- (Z_mod_plus_full (tt - c) 1 18446744073709551616). rewrite Z.mod_small by lia. replace (tt - c + 1 * 18446744073709551616 <? 9223372036854775808) with false by lia. lia. }
  rewrite A. cbn [fst]. assert (HD : forall d, In d (decs g tt l) -> d < 9223372036854775808) by (intros d Hd'; apply Hd; right; exact Hd').
  assert (HG : forall c', In c' l -> gap v c' = g c' /\ 0 <= g c' <= c' /\ c' < 9223372036854775808) by (intros c' Hc'; apply Hg; right; exact Hc').
  destruct (m <? tt - c) eqn:Q.
  - destruct (IH tt (tt - c) c HG) as (t' & E); [lia|lia|exact HD|]. rewrite E. exists t'. replace (Z.max m (tt - c)) with (tt - c) by lia. reflexivity.
  - destruct (IH tt m t HG) as (t' & E); [lia|lia|exact HD|]. rewrite E. exists t'. replace (Z.max m (tt - c)) with m by lia. reflexivity.
Qed.
Lemma fair_bounds : forall l m, fair l -> earliest l m -> forall d, In d (decs (gap (sort l)) m l) -> d < 2 ^ 63.
Proof.
  intros l m [F0 B] [E1 E2] d Hd. pose proof (modest_bound l (fair_modest l (conj F0 B))) as F. assert (Gb : forall c, In c l -> 0 <= gap (sort l) c <= c) by (intros c I; apply gap_nonneg; assumption).
  set (M := fold_right Z.max 0 l). assert (HM : forall c, In c l -> c <= M) by (unfold M; clear; induction l as [|x l IH]; intros c Hc; [destruct Hc|]; destruct Hc as [<-|Hc]; cbn [fold_right]; [lia|specialize (IH c Hc); lia]).
  assert (HM2 : In M l \/ M = 0). { unfold M. clear. induction l as [|x l IH]; [right; reflexivity|]. cbn [fold_right]. destruct (Z.max_spec x (fold_right Z.max 0 l)) as [[_ ->]|[_ ->]]; [destruct IH as [IH|IH]; [left; right; exact IH|right; exact IH]|left; left; reflexivity]. }
  pose proof (decs_bound (gap (sort l)) l m M (fun c Hc => conj (proj1 (Gb c Hc)) (Z.le_trans _ _ _ (proj2 (Gb c Hc)) (HM c Hc))) d Hd) as Q.
  assert (m <= M) by (apply HM; exact E1). destruct HM2 as [HM2|HM2]; [specialize (B M HM2); nia|rewrite HM2 in *; lia].
Qed.
Lemma fair_small : forall l c, fair l -> In c l -> c < 2 ^ 63.
Proof. intros l c [F B] I. rewrite Forall_forall in F. specialize (F c I). specialize (B c I). nia. Qed.
(** the totals and the largest distance, in terms of the decoding times *)
Lemma decs_shift : forall g l tot a, decs g (tot + a) l = map (fun d => d + a) (decs g tot l).
Proof. intros g. induction l as [|c l IH]; intros tot a; [reflexivity|]. cbn [decs map]. replace (tot + a + g c) with (tot + g c + a) by lia. rewrite IH. reflexivity. Qed.
Lemma simulate_spec : forall c0 l m, fair (c0 :: l) -> earliest (c0 :: l) m ->
  exists t, simulate (c0 :: l) = (m :: decs (gap (sort (c0 :: l))) m l, (worst 0 l (decs (gap (sort (c0 :: l))) m l), t)).
Proof.
  intros c0 l m FA EA. set (v := sort (c0 :: l)). unfold simulate. fold v. pose proof EA as [E1 E2]. destruct FA as [F0 FB] eqn:FE. clear FE.
  assert (Hv : exists r, v = m :: r).
  { unfold v. destruct (sort (c0 :: l)) as [|m' r] eqn:Es; [apply (proj2 (sort_In _ m)) in E1; rewrite Es in E1; destruct E1|]. destruct (sort_head _ m' r Es) as [H1 H2]. assert (m' = m) as -> by (specialize (H2 m E1); specialize (E2 m' H1); lia). exists r. reflexivity. }
  destruct Hv as (r & Hv). cbn [totals]. replace (match v with [] => 0 | t :: _ => t end) with m by (rewrite Hv; reflexivity). assert (M0 : 0 <= m) by (rewrite Forall_forall in F0; apply F0; exact E1).
  assert (C0 : m <= c0) by (apply E2; left; reflexivity). pose proof (fair_small _ c0 FA (or_introl eq_refl)) as S0.
  assert (A : as_i64 (m - c0) = m - c0).
  { unfold as_i64. change (2 ^ 63) with 9223372036854775808 in *. change (2 ^ 64) with 18446744073709551616. destruct (Z.eq_dec m c0) as [->|NE]; [rewrite Z.sub_diag; reflexivity|].
    rewrite <- (Z_mod_plus_full (m - c0) 1 18446744073709551616). rewrite Z.mod_small by lia. replace (m - c0 + 1 * 18446744073709551616 <? 9223372036854775808) with false by lia. lia. }
  rewrite A. cbn [fst]. replace (0 <? m - c0) with false by lia.
  pose proof (modest_bound _ (fair_modest _ FA)) as MB. assert (Gb : forall c, In c (c0 :: l) -> 0 <= gap v c <= c) by (intros c I; apply gap_nonneg; assumption).
  destruct (totals_spec v (gap v) l m 0 0) as (t & E).
  - intros c I. split; [reflexivity|]. split; [apply Gb; right; exact I|apply (fair_small _ c FA); right; exact I].
  - exact M0.
  - lia.
  - intros d Hd. pose proof (fair_bounds _ m FA EA) as FBD. fold v in FBD. cbn [decs] in FBD. rewrite decs_shift in FBD. specialize (FBD (d + gap v c0)). pose proof (Gb c0 (or_introl eq_refl)).
    assert (d + gap v c0 < 2 ^ 63) by (apply FBD; right; apply in_map_iff; exists d; auto). lia.
  - exists t. rewrite E. reflexivity.
Qed.
Lemma simulate_valid : forall c0 l m, fair (c0 :: l) -> earliest (c0 :: l) m -> exists ts d t, simulate (c0 :: l) = (m :: ts, (d, t)) /\ length ts = length l /\ 0 <= d
  /\ (forall i, (i < length l)%nat -> (earliest (c0 :: l) (nth i l 0) -> nth i ts 0 = nth i (m :: ts) 0) /\ (forall p, just_before (c0 :: l) p (nth i l 0) -> nth i ts 0 = nth i (m :: ts) 0 + (nth i l 0 - p)))
  /\ (forall i, (i < length l)%nat -> nth i ts 0 - nth i l 0 <= d) /\ (d = 0 \/ exists i, (i < length l)%nat /\ nth i ts 0 - nth i l 0 = d).
Proof.
  intros c0 l m FA EA. destruct (simulate_spec c0 l m FA EA) as (t & E). set (v := sort (c0 :: l)) in *. pose proof (modest_bound _ (fair_modest _ FA)) as MB. destruct (worst_spec l (decs (gap v) m l) 0) as (A & B & C); [rewrite decs_length; reflexivity|].
  eexists _, _, t. split; [exact E|]. split; [apply decs_length|]. split; [exact A|]. split; [|split].
  - intros i I. rewrite decs_nth by exact I. assert (IN : In (nth i l 0) (c0 :: l)) by (right; apply nth_In; exact I). split.
    + intros EE. unfold v. rewrite (gap_is (c0 :: l) (nth i l 0) 0 MB); [lia|left; auto].
    + intros p J. unfold v. rewrite (gap_is (c0 :: l) (nth i l 0) (nth i l 0 - p) MB); [lia|right; exists p; auto].
  - intros i I. specialize (B i I). lia.
  - destruct C as [C|(i & I & C)]; [left; exact C|right; exists i; split; [exact I|lia]].
Qed.
(** against the decoding times of a track *)
Lemma simulate_against : forall c0 l m g, fair (c0 :: l) -> earliest (c0 :: l) m -> (c0 = m /\ g = 0) \/ (exists p, just_before (c0 :: l) p c0 /\ g = c0 - p) ->
  exists ds off ts d t, auto_decoding (c0 :: l) = (ds, off) /\ simulate (c0 :: l) = (ts, (d, t)) /\ ts = map (fun x => x - g) ds /\ d = Z.max 0 (off - g).
Proof.
  intros c0 l m g FA EA HG. destruct (simulate_spec c0 l m FA EA) as (t & E). pose proof (modest_bound _ (fair_modest _ FA)) as MB. set (v := sort (c0 :: l)) in *.
  assert (Eg : gap v c0 = g). { unfold v. apply gap_is; [exact MB|]. destruct HG as [[-> ->]|(p & J & ->)]; [left; auto|right; exists p; split; [left; reflexivity|auto]]. }
  assert (G0 : 0 <= g /\ m + g <= c0).
  { destruct HG as [[-> ->]|(p & (J1 & J2 & _) & ->)]; [lia|]. destruct EA as [_ E2]. specialize (E2 p J1). lia. }
  eexists _, _, _, _, t. split; [apply (auto_spec _ m (fair_modest _ FA) EA)|]. split; [exact E|]. fold v. cbn [decs worst]. rewrite Eg. split.
  - cbn [map]. f_equal; [lia|]. rewrite decs_shift, map_map. transitivity (map (fun x => x) (decs (gap v) m l)); [symmetry; apply map_id|]. apply map_ext. intros x. lia.
  - replace (Z.max 0 (m + g - c0)) with 0 by lia. rewrite decs_shift. generalize (decs (gap v) m l). intros ds. assert (G : forall l ds b, 0 <= g -> worst b l (map (fun d => d + g) ds) = worst (b - g) l ds + g).
    { clear. induction l as [|c l IH]; intros [|d ds] b H; cbn [worst map]; try lia. rewrite IH by exact H. f_equal. f_equal. lia. }
    rewrite (G l ds 0) by lia. assert (H : forall l ds a b, worst (Z.max a b) l ds = Z.max a (worst b l ds)).
    { clear. induction l as [|c l IH]; intros [|d ds] a b; cbn [worst]; try reflexivity. rewrite <- Z.max_assoc. apply IH. }
    replace 0 with (Z.max 0 (0 - g)) at 1 by lia. rewrite H. lia.
Qed.
(** one sample too many: the latest time twice *)
Lemma simulate_twice : forall l a b, StronglySorted Z.lt (l ++ [a; b]) -> fair (l ++ [a; b; b]) -> exists ts t, simulate (l ++ [a; b] ++ [b]) = (ts, (b - a, t)).
Proof.
  intros l a b SS FA. change ([a; b] ++ [b]) with [a; b; b] in *. set (w := l ++ [a; b; b]) in *. pose proof (modest_bound _ (fair_modest _ FA)) as MB.
  assert (Hw : exists c0 r, w = c0 :: r /\ earliest w c0 /\ (l = [] -> c0 = a) ).
  { destruct l as [|c0 l']; [exists a, [b; b]|exists c0, (l' ++ [a; b; b])]; (split; [reflexivity|]); (split; [|intros; try reflexivity; try discriminate]).
    - split; [left; reflexivity|]. cbn [app] in SS. apply StronglySorted_inv in SS as [_ F]. inversion F; subst. intros y [<-|[<-|[<-|[]]]]; lia.
    - split; [left; reflexivity|]. cbn [app] in SS. apply StronglySorted_inv in SS as [_ F]. rewrite Forall_forall in F. intros y [<-|I]; [lia|]. apply in_app_iff in I as [I|[<-|[<-|[<-|[]]]]]; apply Z.lt_le_incl, F; apply in_app_iff; [left; exact I|right; left; reflexivity|right; right; left; reflexivity|right; right; left; reflexivity]. }
  destruct Hw as (c0 & r & Ew & EA & _). rewrite Ew in *. destruct (simulate_against c0 r c0 0 FA EA (or_introl (conj eq_refl eq_refl))) as (ds & off & ts & d & t & A1 & A2 & A3 & A4).
  exists ts, t. rewrite A2. f_equal. f_equal. rewrite A4. clear A2 A3 A4. rewrite <- Ew in *.
  assert (L : exists q, w = (l ++ [a; b]) ++ [b] /\ q = 0) by (exists 0; split; [unfold w; rewrite <- app_assoc; reflexivity|reflexivity]). destruct L as (_ & Ew2 & _).
  (* decoding times of the distinct ones *)
  set (u := l ++ [a; b]) in *. assert (Fu : Forall (fun c => 0 <= c < 2 ^ 64) u) by (rewrite Ew2 in MB; apply Forall_app in MB; apply MB).
  assert (INu : forall x, In x w <-> In x u). { intros x. rewrite Ew2, in_app_iff. split; [intros [H|[<-|[]]]; [exact H|unfold u; apply in_app_iff; right; right; left; reflexivity]|intros H; left; exact H]. }
  assert (EU : earliest u c0). { destruct EA as [E1 E2]. split; [apply INu; exact E1|]. intros y I. apply E2. apply INu. exact I. }
  assert (GG : forall x, In x u -> gap (sort w) x = gap (sort u) x).
  { intros x I. apply gap_is; [exact MB|]. destruct (gap_spec u x Fu I) as [[Q ->]|(p & Q & ->)].
    - left. split; [|reflexivity]. destruct Q as [Q1 Q2]. split; [apply INu; exact Q1|]. intros y J. apply Q2, INu, J.
    - right. exists p. split; [apply INu; exact I|]. split; [|reflexivity]. destruct Q as (Q1 & Q2 & Q3). split; [apply INu; exact Q1|]. split; [exact Q2|]. intros y J. apply Q3, INu, J. }
  pose proof (sorted_decs u c0 Fu EU SS) as SD. pose proof (auto_spec w c0 (fair_modest _ FA) EA) as AS. rewrite AS in A1. injection A1 as _ <-.
  assert (DW : decs (gap (sort w)) c0 w = u ++ [b + (b - a)]).
  { rewrite Ew2 at 2. rewrite decs_app. rewrite (decs_ext (gap (sort w)) (gap (sort u))) by exact GG. rewrite SD. f_equal. cbn [decs]. f_equal. f_equal.
    - rewrite (sumg_ext (gap (sort w)) (gap (sort u))) by exact GG. rewrite <- decs_last, SD. unfold u. replace (l ++ [a; b]) with ((l ++ [a]) ++ [b]) by (rewrite <- app_assoc; reflexivity). apply last_last.
    - apply gap_is; [exact MB|]. right. exists a. split; [apply INu; unfold u; apply in_app_iff; right; right; left; reflexivity|]. split; [|reflexivity].
      assert (HS : Forall (fun x => x <= a) l /\ a < b).
      { unfold u in SS. clear -SS. induction l as [|x l IH]; cbn [app] in SS; apply StronglySorted_inv in SS as [S F]; [inversion F; subst; split; [constructor|lia]|]. destruct (IH S) as [I1 I2]. split; [|exact I2]. constructor; [|exact I1]. rewrite Forall_forall in F. apply Z.lt_le_incl, F. apply in_app_iff. right. left. reflexivity. }
      destruct HS as [H1 H2]. split; [apply INu; unfold u; apply in_app_iff; right; left; reflexivity|]. split; [exact H2|]. intros y J Y. apply INu in J. unfold u in J. apply in_app_iff in J as [J|[<-|[<-|[]]]]; [rewrite Forall_forall in H1; apply H1; exact J|lia|lia]. }
  rewrite DW, Ew2. assert (W0 : forall m x y, worst 0 (m ++ [x]) (m ++ [y]) = Z.max 0 (y - x)).
  { clear. induction m as [|z m IH]; intros x y; [reflexivity|]. cbn [app worst]. rewrite Z.sub_diag. exact (IH x y). }
  rewrite W0. assert (a < b). { unfold u in SS. clear -SS. induction l as [|x l IH]; cbn [app] in SS; apply StronglySorted_inv in SS as [S F]; [inversion F; subst; lia|apply IH; exact S]. } lia.
Qed.

(** ** Trying out, on a movie *)
Lemma simul_run : forall n ks visual e start end_ s r st, whole ks e -> move ks e start (first_visual 0 visual) = Some r -> (total ks < n)%nat -> nth_error (r_streams r) s = Some st ->
  exists l r', walk n r = Some (l, r') /\ map snd (filter (fun p => (fst p =? s)%nat) l) = rest st
  /\ simul_times n ks visual e start end_ (Z.of_nat s) = Some (ending None l (filter (fun p => (fst p =? s)%nat) l) end_).
Proof.
  intros n ks visual e start end_ s r st W M T N. destruct (move_ok _ _ _ _ _ W M) as (R & RM & LS & _).
  destruct (simul_walk n r None (map (fun _ => true) ks) s end_ R) as (l & r' & K & P); [lia|apply trues|rewrite map_length; congruence|].
  destruct (walk_complete r n R) as (l2 & r2 & W2 & _ & _ & O & _); [lia|]. rewrite K in W2. injection W2 as <- <-.
  exists l, r'. split; [exact K|]. split; [exact (O s st N)|]. unfold simul_times. rewrite M. replace (Z.of_nat s =? -1) with false by lia. rewrite P. reflexivity.
Qed.
Lemma existsb_rows : forall end_ l, 0 <= end_ < 2 ^ 63 -> existsb (stops end_) l = existsb (at_end end_) (map snd l).
Proof. intros end_ l E. induction l as [|p l IH]; [reflexivity|]. cbn [existsb map]. rewrite IH, (stops_at_end _ _ E). reflexivity. Qed.
Lemma through_rows : forall end_ l, 0 <= end_ < 2 ^ 63 -> map (fun p : nat * sample => s_comp (snd p)) (through (stops end_) l) = map s_comp (through (at_end end_) (map snd l)).
Proof. intros end_ l E. rewrite (through_ext _ _ (fun p => at_end end_ (snd p))) by (intros p; apply stops_at_end; exact E). rewrite <- through_map, map_map. reflexivity. Qed.
Lemma late_last : forall ms l p, late ms (l ++ [p]) = Some (snd p).
Proof. intros ms l p. unfold late. rewrite rev_app_distr. reflexivity. Qed.
Lemma simulate_same : forall c0 l, fair (c0 :: l) -> earliest (c0 :: l) c0 -> exists ts d t, simulate (c0 :: l) = (ts, (d, t)) /\ auto_decoding (c0 :: l) = (ts, d).
Proof.
  intros c0 l F E. destruct (simulate_against c0 l c0 0 F E (or_introl (conj eq_refl eq_refl))) as (ds & off & ts & d & t & A & B & C & D). exists ts, d, t. split; [exact B|].
  rewrite A. destruct (auto_valid (c0 :: l) c0 (fair_modest _ F) E) as (ds2 & off2 & A2 & _ & P & _). rewrite A in A2. injection A2 as <- <-. f_equal; [|lia].
  rewrite C. transitivity (map (fun x => x) ds); [symmetry; apply map_id|apply map_ext; intros x; lia].
Qed.
Lemma simulate_low : forall c0 l m p, fair (c0 :: l) -> earliest (c0 :: l) m -> just_before (c0 :: l) p c0 ->
  exists ts d t ds off, simulate (c0 :: l) = (ts, (d, t)) /\ auto_decoding (c0 :: l) = (ds, off) /\ ts = map (fun x => x - (c0 - p)) ds /\ d = Z.max 0 (off - (c0 - p)).
Proof.
  intros c0 l m p F E J. destruct (simulate_against c0 l m (c0 - p) F E) as (ds & off & ts & d & t & A & B & C & D); [right; exists p; split; [exact J|reflexivity]|]. exists ts, d, t, ds, off. auto.
Qed.
Lemma simulate_twice_off : forall l a b, StronglySorted Z.lt (l ++ [a; b]) -> fair (l ++ [a; b; b]) -> exists ts t ds, simulate (l ++ [a; b; b]) = (ts, (b - a, t)) /\ auto_decoding (l ++ [a; b]) = (ds, 0).
Proof.
  intros l a b SS F. destruct (simulate_twice l a b SS F) as (ts & t & E). change ([a; b] ++ [b]) with [a; b; b] in E. exists ts, t.
  assert (M : modest (l ++ [a; b])).
  { destruct (fair_modest _ F) as [F1 F2]. replace (l ++ [a; b; b]) with ((l ++ [a; b]) ++ [b]) in * by (rewrite <- app_assoc; reflexivity). split; [apply Forall_app in F1; apply F1|]. intros c I. specialize (F2 c (in_or_app _ _ _ (or_introl I))).
    rewrite (app_length (l ++ [a; b])) in F2. cbn [length] in F2. apply Forall_app in F1 as [F1 _]. rewrite Forall_forall in F1. specialize (F1 c I). nia. }
  assert (ND : NoDup (l ++ [a; b])). { revert SS. generalize (l ++ [a; b]). intros u SS. induction SS as [|x u SS IH H]; constructor; [|exact IH]. intros I. rewrite Forall_forall in H. specialize (H x I). lia. }
  destruct (auto_in_order _ M ND) as (ds & off & A & B & _); [destruct l; discriminate|]. exists ds. split; [exact E|]. rewrite A. f_equal. apply B. exact SS.
Qed.
