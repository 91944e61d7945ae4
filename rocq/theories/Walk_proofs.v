(** Proofs about Walk_model. *)
From Coq Require Import Permutation Sorted ZifyNat.
From Verif Require Import Util SampleTab_model SampleTab_proofs Walk_model.
Local Open Scope Z_scope.

Lemma pick_rest : forall st, pick st = hd_error (rest st).
Proof. intros [l c]. unfold pick, rest. cbn [st_samples st_cur]. revert c. induction l; intros [|c]; cbn; auto. Qed.
Lemma rest_next : forall st x, pick st = Some x -> rest st = x :: rest (move_next st).
Proof.
  intros [l c] x. unfold pick, rest, move_next. cbn [st_samples st_cur]. intros H. destruct (Nat.ltb_spec c (length l)).
  - cbn [st_samples st_cur]. clear H0. revert l H. induction c; intros [|y l] H; cbn in *; try discriminate; [congruence|]. apply IHc. assumption.
  - apply nth_error_None in H0. congruence.
Qed.
Definition bounded (ss : list stream) : Prop := forall st x, In st ss -> pick st = Some x -> 0 <= s_off x < U64MAX.
Definition least (ss : list stream) (l : Z) : Prop := forall st x, In st ss -> pick st = Some x -> l <= s_off x.

Lemma least_nil : forall l, least [] l. Proof. intros l st x []. Qed.
Lemma least_cons : forall st ss l, (forall x, pick st = Some x -> l <= s_off x) -> least ss l -> least (st :: ss) l.
Proof. intros st ss l A B s x [<-|I]; eauto. Qed.

Lemma scan_min_ok : forall ss n i s last, bounded ss -> (i + length ss = n)%nat -> last <= U64MAX -> (s = None -> last = U64MAX) ->
  (exists st x, In st ss /\ pick st = Some x) \/ (s <> None /\ last < U64MAX) ->
  (exists j st x, scan_min n i ss s last = Some (Some (i + j)%nat, s_off x) /\ nth_error ss j = Some st /\ pick st = Some x /\ least ss (s_off x) /\ s_off x < last)
  \/ (scan_min n i ss s last = Some (s, last) /\ least ss last /\ s <> None /\ last < U64MAX).
Proof.
  induction ss as [|st ss IH]; intros n i s last B L U SN E.
  - destruct E as [(st & x & [] & _)|(N & E)]. right. cbn [scan_min]. repeat split; auto. apply least_nil.
  - assert (B' : bounded ss) by (intros st' x I; apply B; right; exact I).
    assert (L' : (S i + length ss = n)%nat) by (cbn in L; lia).
    assert (SK : forall s last, last <= U64MAX -> (s = None -> last = U64MAX) -> ((exists st x, In st ss /\ pick st = Some x) \/ (s <> None /\ last < U64MAX)) -> (forall x, pick st = Some x -> last <= s_off x) ->
       (exists j st' x, scan_min n (S i) ss s last = Some (Some (i + j)%nat, s_off x) /\ nth_error (st :: ss) j = Some st' /\ pick st' = Some x /\ least (st :: ss) (s_off x) /\ s_off x < last)
       \/ (scan_min n (S i) ss s last = Some (s, last) /\ least (st :: ss) last /\ s <> None /\ last < U64MAX)).
    { intros s' last' U' SN' E' F. destruct (IH n (S i) s' last' B' L' U' SN' E') as [(j & st' & x & E1 & E2 & E3 & E4 & E5)|(E1 & E2 & E3 & E4)].
      - left. exists (S j), st', x. replace (i + S j)%nat with (S i + j)%nat by lia. repeat split; auto. apply least_cons; [|exact E4]. intros y P. specialize (F y P). lia.
      - right. repeat split; auto. apply least_cons; auto. }
    assert (SE : (pick st = None) -> (exists st' x, In st' ss /\ pick st' = Some x) \/ (s <> None /\ last < U64MAX)).
    { intros P. destruct E as [(st' & x & [<-|I] & P')|E]; [congruence|left; eauto|right; exact E]. }
    cbn [scan_min]. destruct (st_samples st) eqn:Es.
    { assert (P : pick st = None) by (unfold pick; rewrite Es; destruct (st_cur st); reflexivity). apply SK; auto. intros x P'. congruence. }
    destruct (pick st) as [x|] eqn:P.
    + destruct (Z.ltb_spec (s_off x) last).
      * destruct (SK (Some i) (s_off x)) as [(j & st' & y & E1 & E2 & E3 & E4 & E5)|(E1 & E2 & E3 & E4)].
        -- lia.
        -- discriminate.
        -- right. split; [discriminate|]. specialize (B st x (or_introl eq_refl) P). lia.
        -- intros y P'. injection P' as <-. lia.
        -- left. exists j, st', y. repeat split; auto. lia.
        -- left. exists 0%nat, st, x. rewrite Nat.add_0_r. repeat split; auto.
      * apply SK; auto.
        -- specialize (B st x (or_introl eq_refl) P). destruct E as [(st' & y & [<-|I] & P')|E]; [|left; eauto|right; exact E]. right. rewrite P in P'. injection P' as <-. split; [|lia]. intros ->. specialize (SN eq_refl). lia.
        -- intros y P'. injection P' as <-. lia.
    + specialize (SE eq_refl). destruct ((i =? n - 1)%nat && (last =? U64MAX)) eqn:G.
      * apply andb_prop in G as (G1 & G2). apply Nat.eqb_eq in G1. apply Z.eqb_eq in G2. destruct ss as [|st' ss']; [|cbn in L'; lia].
        destruct SE as [(st' & x & [] & _)|(_ & ?)]; lia.
      * apply SK; auto. intros x P'. discriminate.
Qed.
Lemma scan_min_none : forall ss n i, (forall st, In st ss -> pick st = None) -> scan_min n i ss None U64MAX = None \/ scan_min n i ss None U64MAX = Some (None, U64MAX).
Proof.
  induction ss as [|st ss IH]; intros n i N; [right; reflexivity|]. cbn [scan_min]. rewrite (N st (or_introl eq_refl)). destruct (st_samples st), ((i =? n - 1)%nat && (U64MAX =? U64MAX)); auto; apply IH; intros st' I; apply N; right; exact I.
Qed.
Lemma scan_eq_some : forall ss i last j, scan_eq i ss last = Some j -> exists k st x, (j = i + k)%nat /\ nth_error ss k = Some st /\ pick st = Some x /\ s_off x = last.
Proof.
  induction ss as [|st ss IH]; intros i last j H; [discriminate|]. cbn [scan_eq] in H.
  assert (R : scan_eq (S i) ss last = Some j -> exists k st0 x, (j = i + k)%nat /\ nth_error (st :: ss) k = Some st0 /\ pick st0 = Some x /\ s_off x = last).
  { intros H'. destruct (IH _ _ _ H') as (k & st' & x & E1 & E2 & E3 & E4). exists (S k), st', x. repeat split; auto. lia. }
  destruct (pick st) as [x|] eqn:P; [|auto]. destruct (Z.eqb_spec (s_off x) last); [|auto]. injection H as <-. exists 0%nat, st, x. repeat split; auto.
Qed.
Lemma scan_eq_none : forall ss i last, (forall st, In st ss -> pick st = None) -> scan_eq i ss last = None.
Proof. induction ss as [|st ss IH]; intros i last N; [reflexivity|]. cbn [scan_eq]. rewrite (N st (or_introl eq_refl)). apply IH. intros st' I. apply N. right. exact I. Qed.
Lemma some_pick_dec : forall ss, (exists st x, In st ss /\ pick st = Some x) \/ (forall st, In st ss -> pick st = None).
Proof.
  induction ss as [|st ss [(st' & x & I & P)|N]]; [right; intros st []|left; exists st', x; split; [right; exact I|exact P]|].
  destruct (pick st) as [x|] eqn:P; [left; exists st, x; split; [left; reflexivity|exact P]|right; intros st' [<-|I]; auto].
Qed.
Lemma attempt_none : forall t ss last, (forall st, In st ss -> pick st = None) -> fst (attempt t ss last) = None.
Proof.
  induction t as [|t IH]; intros ss last N; [reflexivity|]. cbn [attempt]. destruct (last =? 0).
  - destruct (scan_min_none ss (length ss) 0 N) as [-> | ->]; [reflexivity|]. apply IH. exact N.
  - rewrite (scan_eq_none ss 0 last N). apply IH. exact N.
Qed.
(** from 0 on *)
Lemma attempt_zero : forall t ss, bounded ss -> (exists st x, In st ss /\ pick st = Some x) ->
  exists i st x, attempt (S t) ss 0 = (Some i, s_off x) /\ nth_error ss i = Some st /\ pick st = Some x /\ least ss (s_off x).
Proof.
  intros t ss B E. cbn [attempt]. destruct (Z.eqb_spec 0 0); [|lia].
  destruct (scan_min_ok ss (length ss) 0 None U64MAX B) as [(j & st & x & E1 & E2 & E3 & E4 & E5)|(_ & _ & N & _)]; [lia|lia|reflexivity|left; exact E| |congruence].
  rewrite E1. exists j, st, x. repeat split; auto.
Qed.
Lemma attempt_ok : forall ss last, bounded ss -> (exists st x, In st ss /\ pick st = Some x) ->
  exists i st x, attempt 15 ss last = (Some i, s_off x) /\ nth_error ss i = Some st /\ pick st = Some x /\ (s_off x = last \/ least ss (s_off x)) /\ (last = 0 -> least ss (s_off x)).
Proof.
  intros ss last B E. destruct (Z.eq_dec last 0) as [->|NZ].
  - destruct (attempt_zero 14 ss B E) as (i & st & x & H1 & H2 & H3 & H4). exists i, st, x. repeat split; auto.
  - change (attempt 15 ss last) with (if last =? 0 then match scan_min (length ss) 0 ss None U64MAX with None => (None, U64MAX) | Some (Some i, l) => (Some i, l) | Some (None, l) => attempt 14 ss l end else match scan_eq 0 ss last with Some i => (Some i, last) | None => attempt 14 ss 0 end).
    destruct (Z.eqb_spec last 0); [lia|]. destruct (scan_eq 0 ss last) as [j|] eqn:Q.
    + destruct (scan_eq_some _ _ _ _ Q) as (k & st & x & -> & H2 & H3 & H4). exists k, st, x. rewrite H4. cbn [Nat.add]. repeat split; auto. lia.
    + destruct (attempt_zero 13 ss B E) as (i & st & x & H1 & H2 & H3 & H4). exists i, st, x. repeat split; auto.
Qed.

Lemma nth_set_stream : forall ss i st st', nth_error ss i = Some st' -> forall j, nth_error (set_nth_stream i st ss) j = if (j =? i)%nat then Some st else nth_error ss j.
Proof.
  induction ss as [|x ss IH]; intros [|i] st st' H j; cbn in H; try discriminate; destruct j as [|j]; cbn [set_nth_stream nth_error Nat.eqb]; try reflexivity.
  apply (IH i st st' H).
Qed.
Lemma set_stream_length : forall ss i st, length (set_nth_stream i st ss) = length ss.
Proof. induction ss as [|x ss IH]; intros [|i] st; cbn [set_nth_stream length]; auto. Qed.
Lemma rem_set : forall ss i st st' x, nth_error ss i = Some st -> rest st = x :: rest st' ->
  (list_sum (map (fun st => length (rest st)) ss) = S (list_sum (map (fun st => length (rest st)) (set_nth_stream i st' ss))))%nat.
Proof.
  induction ss as [|y ss IH]; intros [|i] st st' x H R; cbn in H; try discriminate.
  - injection H as ->. cbn. rewrite R. cbn. lia.
  - cbn [set_nth_stream map]. change (list_sum (?a :: ?b)) with (a + list_sum b)%nat. specialize (IH i st st' x H R). unfold list_sum in *. cbn [fold_right]. lia.
Qed.
Lemma readable_bounded : forall r, readable r -> bounded (r_streams r).
Proof.
  intros r (M & R) st x I P. specialize (R st I). rewrite pick_rest in P. destruct (rest st) as [|y l]; [discriminate|]. cbn in P. injection P as ->.
  inversion R as [|? ? (H1 & H2 & H3) _]. subst. unfold U64MAX. lia.
Qed.
(** a step *)
Lemma next_some : forall r, readable r -> (exists st x, In st (r_streams r) /\ pick st = Some x) ->
  exists i st x, nth_error (r_streams r) i = Some st /\ rest st = x :: rest (move_next st)
  /\ next r = (mkRd (set_nth_stream i (move_next st) (r_streams r)) (s_off x + s_size x) (r_mdat_end r), Some (i, x, true))
  /\ (s_off x = r_last r \/ least (r_streams r) (s_off x)) /\ (r_last r = 0 -> least (r_streams r) (s_off x)).
Proof.
  intros r R E. pose proof (readable_bounded r R) as B. destruct (attempt_ok (r_streams r) (r_last r) B E) as (i & st & x & H1 & H2 & H3 & H4 & H5).
  exists i, st, x. split; [exact H2|]. split; [apply rest_next; exact H3|]. split; [|split; auto].
  unfold next. rewrite H1, H2, H3. destruct R as (M & R). specialize (R st (nth_error_In _ _ H2)). rewrite (rest_next _ _ H3) in R. inversion R as [|? ? (I1 & I2 & I3) _]. subst.
  rewrite u64_id by lia. destruct (Z.leb_spec (s_off x + s_size x) (r_mdat_end r)); [reflexivity|lia].
Qed.
Lemma next_none : forall r, (forall st, In st (r_streams r) -> pick st = None) -> exists l, next r = (mkRd (r_streams r) l (r_mdat_end r), None).
Proof.
  intros r N. unfold next. pose proof (attempt_none 15 (r_streams r) (r_last r) N) as H. destruct (attempt 15 (r_streams r) (r_last r)) as [o l]. cbn in H. subst o. exists l. reflexivity.
Qed.
Lemma readable_next : forall r i st x l, readable r -> nth_error (r_streams r) i = Some st -> rest st = x :: rest (move_next st) ->
  readable (mkRd (set_nth_stream i (move_next st) (r_streams r)) l (r_mdat_end r)).
Proof.
  intros r i st x l (M & R) H1 H2. split; [exact M|]. cbn [r_streams r_mdat_end]. intros st' I. apply In_nth_error in I as (j & J). rewrite (nth_set_stream _ _ _ _ H1) in J.
  destruct (j =? i)%nat.
  - injection J as <-. specialize (R st (nth_error_In _ _ H1)). rewrite H2 in R. inversion R; assumption.
  - apply R. eapply nth_error_In; eauto.
Qed.
Lemma no_pick_rest : forall ss, (forall st, In st ss -> pick st = None) -> forall st, In st ss -> rest st = [].
Proof. intros ss N st I. specialize (N st I). rewrite pick_rest in N. destruct (rest st); [reflexivity|discriminate]. Qed.

Lemma walk_S : forall n r, walk (S n) r = match next r with (r, Some (i, x, true)) => match walk n r with Some (l, r) => Some ((i, x) :: l, r) | None => None end | (r, _) => Some ([], r) end.
Proof. reflexivity. Qed.
Definition done_with (r' : reader) : Prop := forall st, In st (r_streams r') -> rest st = [].
Lemma walk_complete : forall r n, readable r -> (remaining r < n)%nat ->
  exists l r', walk n r = Some (l, r') /\ done_with r' /\ length l = remaining r
  /\ (forall i st, nth_error (r_streams r) i = Some st -> of_stream i l = rest st) /\ (forall i x, In (i, x) l -> (i < length (r_streams r))%nat).
Proof.
  intros r n. revert r. induction n as [|n IH]; intros r R L; [lia|]. rewrite walk_S. destruct (some_pick_dec (r_streams r)) as [E|N].
  - destruct (next_some r R E) as (i & st & x & H1 & H2 & H3 & _). rewrite H3. pose proof (rem_set _ _ _ _ _ H1 H2) as RS.
    destruct (IH _ (readable_next r i st x (s_off x + s_size x) R H1 H2)) as (l & r' & W & D & LL & O & I).
    { unfold remaining in *. cbn [r_streams]. lia. }
    rewrite W. exists ((i, x) :: l), r'. split; [reflexivity|]. split; [exact D|]. split; [|split].
    + cbn [length]. rewrite LL. unfold remaining in *. cbn [r_streams]. lia.
    + intros j st' J. unfold of_stream. cbn [filter fst]. cbn [r_streams] in O. destruct (Nat.eqb_spec i j) as [<-|NE].
      * cbn [map snd]. rewrite H1 in J. injection J as <-. rewrite H2. f_equal. apply O. rewrite (nth_set_stream _ _ _ _ H1). rewrite Nat.eqb_refl. reflexivity.
      * apply O. rewrite (nth_set_stream _ _ _ _ H1). destruct (Nat.eqb_spec j i); [congruence|exact J].
    + intros j y [Q|Q]; [injection Q as <- <-; apply nth_error_Some; congruence|]. specialize (I j y Q). cbn [r_streams] in I. rewrite set_stream_length in I. exact I.
  - destruct (next_none r N) as (l & H). rewrite H. exists [], (mkRd (r_streams r) l (r_mdat_end r)). split; [reflexivity|]. split; [intros st I; eapply no_pick_rest; eauto|].
    split; [|split].
    + unfold remaining. clear -N. symmetry. pose proof (no_pick_rest _ N) as Q. revert Q. clear N. induction (r_streams r) as [|st ss IH]; intros Q; [reflexivity|]. cbn [map]. rewrite (Q st (or_introl eq_refl)). cbn. apply IH. intros st' I. apply Q. right. exact I.
    + intros i st I. rewrite (no_pick_rest _ N st (nth_error_In _ _ I)). reflexivity.
    + intros i x [].
Qed.

(** file order *)
Definition tidy (r : reader) : Prop := (forall st, In st (r_streams r) -> StronglySorted before (rest st) /\ Forall (fun x => 0 < s_size x) (rest st))
  /\ (forall i j st st' x y, nth_error (r_streams r) i = Some st -> nth_error (r_streams r) j = Some st' -> i <> j -> In x (rest st) -> In y (rest st') -> apart x y).
Definition from (p : Z) (r : reader) : Prop := forall st x, In st (r_streams r) -> In x (rest st) -> p <= s_off x.
Lemma tidy_next : forall r i st x l, tidy r -> nth_error (r_streams r) i = Some st -> rest st = x :: rest (move_next st) ->
  tidy (mkRd (set_nth_stream i (move_next st) (r_streams r)) l (r_mdat_end r)).
Proof.
  intros r i st x l (T1 & T2) H1 H2.
  assert (SUB : forall j st', nth_error (set_nth_stream i (move_next st) (r_streams r)) j = Some st' -> exists st0, nth_error (r_streams r) j = Some st0 /\ incl (rest st') (rest st0)).
  { intros j st' J. rewrite (nth_set_stream _ _ _ _ H1) in J. destruct (Nat.eqb_spec j i) as [->|NE]; [|exists st'; split; [exact J|apply incl_refl]].
    injection J as <-. exists st. split; [exact H1|]. rewrite H2. apply incl_tl. apply incl_refl. }
  split; cbn [r_streams].
  - intros st' I. apply In_nth_error in I as (j & J). rewrite (nth_set_stream _ _ _ _ H1) in J. destruct (j =? i)%nat.
    + injection J as <-. destruct (T1 st (nth_error_In _ _ H1)) as (A & B). rewrite H2 in A, B. split; [inversion A; assumption|inversion B; assumption].
    + apply T1. eapply nth_error_In; eauto.
  - intros j k st1 st2 a b J K NE Ia Ib. destruct (SUB _ _ J) as (s1 & J' & S1). destruct (SUB _ _ K) as (s2 & K' & S2). apply (T2 j k s1 s2); auto.
Qed.
Lemma least_from : forall r p, tidy r -> least (r_streams r) p -> from p r.
Proof.
  intros r p (T1 & _) L st x I J. destruct (T1 st I) as (A & B). specialize (L st). destruct (rest st) as [|y l] eqn:E; [destruct J|].
  assert (Y : p <= s_off y) by (apply L; [exact I|rewrite pick_rest, E; reflexivity]). destruct J as [<-|J]; [exact Y|].
  inversion A as [|? ? _ F]. subst. rewrite Forall_forall in F. destruct (F x J). lia.
Qed.
Lemma walk_ordered : forall r n l r' p, readable r -> tidy r -> from p r -> r_last r = 0 \/ r_last r = p -> (remaining r < n)%nat -> walk n r = Some (l, r') ->
  StronglySorted before (map snd l) /\ forall x, In x (map snd l) -> p <= s_off x.
Proof.
  intros r n. revert r. induction n as [|n IH]; intros r l r' p R T F Z0 L W; [lia|]. rewrite walk_S in W. destruct (some_pick_dec (r_streams r)) as [E|N].
  - destruct (next_some r R E) as (i & st & x & H1 & H2 & H3 & H4 & H5). rewrite H3 in W.
    destruct (walk n (mkRd (set_nth_stream i (move_next st) (r_streams r)) (s_off x + s_size x) (r_mdat_end r))) as [(l1, r1)|] eqn:W1; [|discriminate]. injection W as <- <-.
    pose proof (rem_set _ _ _ _ _ H1 H2) as RS.
    assert (LE : from (s_off x) r).
    { destruct H4 as [H4|H4]; [|apply least_from; auto]. destruct Z0 as [Z0|Z0]; [apply least_from; auto|]. rewrite H4, Z0. exact F. }
    assert (PX : p <= s_off x) by (apply (F st); [eapply nth_error_In; eauto|rewrite H2; left; reflexivity]).
    assert (SX : 0 < s_size x) by (destruct T as (T1 & _); destruct (T1 st (nth_error_In _ _ H1)) as (_ & B); rewrite H2 in B; inversion B; assumption).
    assert (F' : from (s_off x + s_size x) (mkRd (set_nth_stream i (move_next st) (r_streams r)) (s_off x + s_size x) (r_mdat_end r))).
    { intros st' y I J. cbn [r_streams] in I. apply In_nth_error in I as (j & K). rewrite (nth_set_stream _ _ _ _ H1) in K. destruct (Nat.eqb_spec j i) as [Q|NE].
      - injection K as <-. destruct T as (T1 & _). destruct (T1 st (nth_error_In _ _ H1)) as (A & _). rewrite H2 in A. inversion A as [|? ? _ G]. subst. rewrite Forall_forall in G. destruct (G y J). lia.
      - destruct T as (_ & T2). destruct (T2 i j st st' x y) as [(_ & Q)|(Q1 & Q2)]; auto; [rewrite H2; left; reflexivity|].
        specialize (LE st' y (nth_error_In _ _ K) J). lia. }
    destruct (IH _ l1 r1 (s_off x + s_size x) (readable_next r i st x _ R H1 H2) (tidy_next r i st x _ T H1 H2) F') as (S1 & S2); [right; reflexivity|unfold remaining in *; cbn [r_streams]; lia|exact W1|].
    cbn [map snd]. split.
    + constructor; [exact S1|]. apply Forall_forall. intros y I. split; [exact SX|]. apply S2. exact I.
    + intros y [<-|I]; [exact PX|]. specialize (S2 y I). lia.
  - destruct (next_none r N) as (l0 & H). rewrite H in W. injection W as <- <-. split; [constructor|intros x []].
Qed.
Lemma attempt_S : forall t ss last, attempt (S t) ss last = if last =? 0 then match scan_min (length ss) 0 ss None U64MAX with None => (None, U64MAX) | Some (Some i, l) => (Some i, l) | Some (None, l) => attempt t ss l end
  else match scan_eq 0 ss last with Some i => (Some i, last) | None => attempt t ss 0 end.
Proof. reflexivity. Qed.
(** nothing outside the media data is handed out *)
Lemma scan_min_sound : forall ss n i s last s' l, scan_min n i ss s last = Some (s', l) -> (s' = s /\ l = last) \/ exists j st x, s' = Some (i + j)%nat /\ nth_error ss j = Some st /\ pick st = Some x /\ l = s_off x.
Proof.
  induction ss as [|st ss IH]; intros n i s last s' l H; cbn [scan_min] in H; [injection H as <- <-; left; split; reflexivity|].
  assert (W : forall s last, scan_min n (S i) ss s last = Some (s', l) -> (s' = s /\ l = last) \/ exists j st0 x, s' = Some (i + j)%nat /\ nth_error (st :: ss) j = Some st0 /\ pick st0 = Some x /\ l = s_off x).
  { intros s0 last0 H0. destruct (IH _ _ _ _ _ _ H0) as [Q|(j & st' & x & E1 & E2 & E3 & E4)]; [left; exact Q|right]. exists (S j), st', x. repeat split; auto. rewrite E1. f_equal. lia. }
  destruct (st_samples st); [auto|]. destruct (pick st) as [x|] eqn:P.
  - destruct (s_off x <? last); [|auto]. destruct (W _ _ H) as [(-> & ->)|Q]; [|right; exact Q]. right. exists 0%nat, st, x. rewrite Nat.add_0_r. repeat split; auto.
  - destruct ((i =? n - 1)%nat && (last =? U64MAX)); [discriminate|auto].
Qed.
Lemma attempt_sound : forall t ss last i l, attempt t ss last = (Some i, l) -> exists st x, nth_error ss i = Some st /\ pick st = Some x /\ l = s_off x.
Proof.
  induction t as [|t IH]; intros ss last i l H; [discriminate|]. cbn [attempt] in H. destruct (last =? 0).
  - destruct (scan_min (length ss) 0 ss None U64MAX) as [([j|], l')|] eqn:Q; [| |discriminate].
    + injection H as -> ->. destruct (scan_min_sound _ _ _ _ _ _ _ Q) as [(? & _)|(j & st & x & E1 & E2 & E3 & E4)]; [discriminate|]. injection E1 as ->. exists st, x. auto.
    + eapply IH; eauto.
  - destruct (scan_eq 0 ss last) as [j|] eqn:Q; [|eapply IH; eauto]. injection H as -> ->. destruct (scan_eq_some _ _ _ _ Q) as (k & st & x & -> & E2 & E3 & E4). exists st, x. auto.
Qed.
Definition sane (x : sample) : Prop := 0 <= s_off x < 2 ^ 63 /\ 0 <= s_size x < 2 ^ 63.
Lemma walk_inside : forall n r l r', (forall st x, In st (r_streams r) -> In x (st_samples st) -> sane x) -> walk n r = Some (l, r') -> forall i x, In (i, x) l -> inside (r_mdat_end r) x.
Proof.
  induction n as [|n IH]; intros r l r' S W i x I; [discriminate|]. rewrite walk_S in W. unfold next in W. destruct (attempt 15 (r_streams r) (r_last r)) as [[j|] l0] eqn:A.
  2: { injection W as <- <-. destruct I. }
  destruct (attempt_sound _ _ _ _ _ A) as (st & y & E1 & E2 & ->). rewrite E1, E2 in W.
  destruct (Z.leb_spec (u64 (s_off y + s_size y)) (r_mdat_end r)) as [LE|GT].
  2: { injection W as <- <-. destruct I. }
  assert (SY : sane y) by (apply (S st y (nth_error_In _ _ E1)); eapply nth_error_In; exact E2).
  destruct (walk n (mkRd (set_nth_stream j (move_next st) (r_streams r)) (u64 (s_off y + s_size y)) (r_mdat_end r))) as [(l1, r1)|] eqn:W1; [|discriminate]. injection W as <- <-.
  destruct I as [Q|I].
  - injection Q as <- <-. destruct SY as (S1 & S2). rewrite u64_id in LE by lia. repeat split; lia.
  - change (r_mdat_end r) with (r_mdat_end (mkRd (set_nth_stream j (move_next st) (r_streams r)) (u64 (s_off y + s_size y)) (r_mdat_end r))).
    eapply IH; [|exact W1|exact I]. intros st' z I' J. cbn [r_streams] in I'. apply In_nth_error in I' as (k & K). rewrite (nth_set_stream _ _ _ _ E1) in K. destruct (k =? j)%nat.
    + injection K as <-. apply (S st z (nth_error_In _ _ E1)). unfold move_next in J. destruct (st_cur st <? length (st_samples st))%nat; exact J.
    + apply (S st' z); [eapply nth_error_In; exact K|exact J].
Qed.
