(** Lemmas on the second pass and on several files. *)
From Coq Require Import ZifyNat.
From Verif Require Import Util Edit_model Edit_proofs.
Local Open Scope Z_scope.

Lemma map_src : forall f jc jd next s, o_src (map_sample f jc jd next s) = s /\ o_stream (map_sample f jc jd next s) = s_stream s.
Proof. intros. unfold map_sample. destruct (next (s_stream s)) as [[c d]|]; split; reflexivity. Qed.
Lemma map_comp : forall f jc jd next s c d, next (s_stream s) = Some (c, d) ->
  o_comp (map_sample f jc jd next s) = jc (s_stream s) + (pres f s - c).
Proof. intros. unfold map_sample. rewrite H. reflexivity. Qed.

Lemma any_active_false : forall n a i, any_active n a = false -> (i < n)%nat -> a i = false.
Proof.
  induction n as [|n IH]; intros a i E H; [lia|]. cbn [any_active] in E. apply orb_false_elim in E.
  destruct (Nat.eq_dec i n) as [->|N]; [apply E|apply IH; [apply E|lia]].
Qed.

Section Loop.
  Variables (p : params) (f : file) (n : nat) (jc jd : nat -> Z) (next : nat -> option (Z * Z)).
  Let loop := copy_loop p f n jc jd next.
  (** the samples copied are those kept of a prefix; it is a proper one only when every
      stream has reached the end *)
  Lemma loop_src : forall l before active last os k,
    (forall i, (i < n)%nat -> active i = false -> exists s, In s before /\ s_stream s = i /\ p_end p <= s_dec s) ->
    loop active last l = Done (os, k) ->
    exists l1 l2, l = l1 ++ l2 /\ os = map (map_sample f jc jd next) (filter (kept p f) l1)
      /\ (l2 = [] \/ (0 < p_end p /\ forall i, (i < n)%nat -> exists s, In s (before ++ l1) /\ s_stream s = i /\ p_end p <= s_dec s)).
  Proof.
    induction l as [|s r IH]; intros before active last os k A E.
    - injection E as <- <-. exists [], []. split; [reflexivity|]. split; [reflexivity|left; reflexivity].
    - cbn [copy_loop loop] in E. fold loop in E.
      set (act := if 0 <? p_end p then upd active (s_stream s) (s_dec s <? p_end p) else active) in *.
      assert (A' : forall i, (i < n)%nat -> act i = false -> exists x, In x (before ++ [s]) /\ s_stream x = i /\ p_end p <= s_dec x).
      { intros i Hi X. unfold act in X. assert (Old : active i = false -> exists x, In x (before ++ [s]) /\ s_stream x = i /\ p_end p <= s_dec x).
        { intros Y. destruct (A i Hi Y) as (x & Ix & Q). exists x. split; [apply in_or_app; left; exact Ix|exact Q]. }
        destruct (0 <? p_end p); [|apply Old; exact X]. destruct (Nat.eq_dec i (s_stream s)) as [Q|Q].
        - rewrite Q, upd_eq in X. exists s. split; [apply in_or_app; right; left; reflexivity|]. split; [symmetry; exact Q|lia].
        - rewrite upd_neq in X by exact Q. apply Old; exact X. }
      assert (G : forall last os' k', (if (if 0 <? p_end p then any_active n act else true) then loop act last r else Done ([], last)) = Done (os', k') ->
         exists l1 l2, r = l1 ++ l2 /\ os' = map (map_sample f jc jd next) (filter (kept p f) l1)
      /\ (l2 = [] \/ (0 < p_end p /\ forall i, (i < n)%nat -> exists x, In x (before ++ s :: l1) /\ s_stream x = i /\ p_end p <= s_dec x))).
      { intros last' os' k' X. destruct (if 0 <? p_end p then any_active n act else true) eqn:W.
        - destruct (IH (before ++ [s]) act last' os' k' A' X) as (l1 & l2 & E1 & E2 & E3). rewrite <- app_assoc in E3. exists l1, l2. split; [exact E1|]. split; [exact E2|exact E3].
        - destruct (0 <? p_end p) eqn:Pe; [|discriminate W]. injection X as <- <-. exists [], r. split; [reflexivity|]. split; [reflexivity|].
          right. split; [lia|]. intros i Hi. apply A'; [exact Hi|]. eapply any_active_false; eassumption. }
      destruct (discards p f s) eqn:D.
      + destruct (f_rap f (s_stream s)); [discriminate E|]. destruct (G _ _ _ E) as (l1 & l2 & E1 & E2 & E3).
        exists (s :: l1), l2. split; [rewrite E1; reflexivity|]. split; [|exact E3]. cbn [filter]. rewrite (kept_eq p f s), D. exact E2.
      + destruct ((0 <? p_end p) && (p_end p <=? pres f s)) eqn:K.
        * destruct (G _ _ _ E) as (l1 & l2 & E1 & E2 & E3).
          exists (s :: l1), l2. split; [rewrite E1; reflexivity|]. split; [|exact E3]. cbn [filter]. rewrite (kept_eq p f s), D. cbn [negb andb].
          replace ((p_end p <=? 0) || (pres f s <? p_end p)) with false by lia. exact E2.
        * match type of E with match ?X with _ => _ end = _ => destruct X as [|(os' & m)] eqn:Y end; [discriminate E|]. injection E as <- <-.
          destruct (G _ _ _ Y) as (l1 & l2 & E1 & E2 & E3).
          exists (s :: l1), l2. split; [rewrite E1; reflexivity|]. split; [|exact E3]. cbn [filter]. rewrite (kept_eq p f s), D. cbn [negb andb].
          replace ((p_end p <=? 0) || (pres f s <? p_end p)) with true by lia. cbn [map]. rewrite E2. reflexivity.
  Qed.
  Lemma loop_src0 : forall l last os k, loop (fun _ => true) last l = Done (os, k) ->
    exists l1 l2, l = l1 ++ l2 /\ os = map (map_sample f jc jd next) (filter (kept p f) l1)
      /\ (l2 = [] \/ (0 < p_end p /\ forall i, (i < n)%nat -> exists s, In s l1 /\ s_stream s = i /\ p_end p <= s_dec s)).
  Proof. intros l last os k E. apply (loop_src l [] (fun _ => true) last os k); [intros i _ X; discriminate X|exact E]. Qed.
  (** the end kept for the next file *)
  Definition ends_at (i : nat) (os : list out) (c0 d0 : Z) (t : track) : Prop :=
    c0 <= k_comp t /\ (forall o, of_stream i os o -> o_comp o <= k_comp t)
    /\ (k_comp t = c0 /\ k_dur t = d0 \/ exists o, of_stream i os o /\ o_comp o = k_comp t /\ k_dur t = dur_of f (o_src o)).
  Lemma loop_track : forall l active last os k, loop active last l = Done (os, k) ->
    forall i, ends_at i os (k_comp (last i)) (k_dur (last i)) (k i).
  Proof.
    induction l as [|s r IH]; intros active last os k E i.
    - injection E as <- <-. split; [lia|]. split; [intros o ([] & _)|left; split; reflexivity].
    - cbn [copy_loop loop] in E. fold loop in E.
      set (act := if 0 <? p_end p then upd active (s_stream s) (s_dec s <? p_end p) else active) in *.
      assert (G : forall last os' k', (if (if 0 <? p_end p then any_active n act else true) then loop act last r else Done ([], last)) = Done (os', k') ->
         ends_at i os' (k_comp (last i)) (k_dur (last i)) (k' i)).
      { intros last' os' k' X. destruct (if 0 <? p_end p then any_active n act else true); [eapply IH; exact X|].
        injection X as <- <-. split; [lia|]. split; [intros o ([] & _)|left; split; reflexivity]. }
      destruct (discards p f s).
      { destruct (f_rap f (s_stream s)); [discriminate E|]. apply G; exact E. }
      destruct ((0 <? p_end p) && (p_end p <=? pres f s)); [apply G; exact E|].
      match type of E with match ?X with _ => _ end = _ => destruct X as [|(os' & m)] eqn:Y end; [discriminate E|]. injection E as <- <-.
      pose proof (G _ _ _ Y) as (A & B & C). set (o := map_sample f jc jd next s) in *.
      assert (Os : o_stream o = s_stream s /\ o_src o = s) by (subst o; split; apply map_src).
      destruct (Nat.eq_dec i (s_stream s)) as [Q|Q].
      + subst i. rewrite upd_eq in A, C.
        destruct (k_comp (last (s_stream s)) <? o_comp o) eqn:T; cbn [k_comp k_dur] in A, C; unfold ends_at.
        * split; [lia|]. split.
          -- intros x ([<-|Hx] & Qx); [exact A|apply B; split; assumption].
          -- right. destruct C as [(C1 & C2)|(x & Hx & C1 & C2)].
             ++ exists o. split; [split; [left; reflexivity|apply Os]|]. split; [lia|]. rewrite C2. unfold dur_of. rewrite (proj2 Os). reflexivity.
             ++ exists x. split; [split; [right; apply Hx|apply Hx]|]. split; assumption.
        * split; [lia|]. split.
          -- intros x ([<-|Hx] & Qx); [lia|apply B; split; assumption].
          -- destruct C as [C|(x & Hx & C1)]; [left; exact C|]. right. exists x. split; [split; [right; apply Hx|apply Hx]|exact C1].
      + rewrite upd_neq in A, C by exact Q. split; [exact A|]. split.
        * intros x ([<-|Hx] & Qx); [exfalso; apply Q; rewrite <- Qx; apply Os|apply B; split; assumption].
        * destruct C as [C|(x & Hx & C1)]; [left; exact C|]. right. exists x. split; [split; [right; apply Hx|apply Hx]|exact C1].
  Qed.
End Loop.

Lemma nth_idx : forall (g : nat -> Z) n i, (i < n)%nat -> nth i (map g (seq 0 n)) 0 = g i.
Proof. intros g n i H. rewrite (nth_indep _ 0 (g 0%nat)) by (rewrite map_length, seq_length; exact H). rewrite map_nth, seq_nth by exact H. reflexivity. Qed.


(** one file: one shift for all streams *)
Lemma file_shift : forall p n prev f os k, streams_below n f -> edit_file p n prev f = Done (os, k) ->
  exists sh, Forall (fun o => o_comp o = pres f (o_src o) + sh) os.
Proof.
  intros p n prev f os k SB E. unfold edit_file in E. destruct (look_ahead p f n (fun _ => None) 0 (f_samples f)) as [|next unread] eqn:LA; [discriminate E|].
  cbv zeta in E.
  set (ends := map (fun i => k_comp (prev i) + k_dur (prev i)) (seq 0 n)) in *.
  set (nc := fun i => match next i with Some (c, _) => c | None => INT64_MAX end) in *.
  set (starts := map nc (seq 0 n)) in *.
  assert (L : length ends = length starts) by (unfold ends, starts; rewrite !map_length; reflexivity).
  assert (Len : length ends = n) by (unfold ends; rewrite map_length, seq_length; reflexivity).
  eexists. apply Forall_forall. intros o Ho.
  destruct (loop_src0 _ _ _ _ _ _ (f_samples f) _ _ _ E) as (l1 & l2 & E1 & E2 & _).
  rewrite E2 in Ho. apply in_map_iff in Ho. destruct Ho as (s & <- & Hs). apply filter_In in Hs.
  assert (Is : In s (f_samples f)) by (rewrite E1; apply in_or_app; left; apply Hs).
  assert (Hi : (s_stream s < n)%nat) by (eapply Forall_forall in SB; [exact SB|exact Is]).
  destruct (scan_all_seen _ _ _ _ _ _ _ _ LA _ Hi) as ((c & d) & N).
  rewrite (map_comp _ _ _ _ _ c d N). rewrite (proj1 (map_src _ _ _ _ _)).
  rewrite join_eq by (try assumption; rewrite Len; exact Hi). unfold starts. rewrite nth_idx by exact Hi. unfold nc at 1. rewrite N.
  replace (c + (max_elt (diffs (max_end ends) (min_start (map nc (seq 0 n))) ends (map nc (seq 0 n))) + max_end ends - min_start (map nc (seq 0 n))) + (pres f s - c))
    with (pres f s + (max_elt (diffs (max_end ends) (min_start (map nc (seq 0 n))) ends (map nc (seq 0 n))) + max_end ends - min_start (map nc (seq 0 n)))) by lia.
  reflexivity.
Qed.


Lemma file_no_overlap : forall p n prev f os k, streams_below n f -> well_ordered p f -> edit_file p n prev f = Done (os, k) ->
  forall i o, of_stream i os o -> k_comp (prev i) + k_dur (prev i) <= o_comp o.
Proof.
  intros p n prev f os k SB WO E i o (Ho & <-). unfold edit_file in E. destruct (look_ahead p f n (fun _ => None) 0 (f_samples f)) as [|next unread] eqn:LA; [discriminate E|].
  cbv zeta in E.
  set (ends := map (fun i => k_comp (prev i) + k_dur (prev i)) (seq 0 n)) in *.
  set (nc := fun i => match next i with Some (c, _) => c | None => INT64_MAX end) in *.
  set (starts := map nc (seq 0 n)) in *.
  assert (L : length ends = length starts) by (unfold ends, starts; rewrite !map_length; reflexivity).
  assert (Len : length ends = n) by (unfold ends; rewrite map_length, seq_length; reflexivity).
  destruct (loop_src0 _ _ _ _ _ _ (f_samples f) _ _ _ E) as (l1 & l2 & E1 & E2 & _).
  rewrite E2 in Ho. apply in_map_iff in Ho. destruct Ho as (s & <- & Hs). apply filter_In in Hs.
  assert (Is : In s (f_samples f)) by (rewrite E1; apply in_or_app; left; apply Hs).
  assert (Hi : (s_stream s < n)%nat) by (eapply Forall_forall in SB; [exact SB|exact Is]).
  assert (Id : In s (not_discarded p f)).
  { rewrite not_discarded_eq. apply filter_In. split; [exact Is|]. destruct Hs as (_ & K). rewrite kept_eq in K. apply andb_prop in K. apply K. }
  assert (M0 : next_min f (fun _ => None) []) by (split; [intros ? []|intros ? ? ? X; discriminate X]).
  destruct (scan_spec p f n (f_samples f) (fun _ => None) 0 [] next unread M0 (Z.le_refl 0) (Nat.le_refl 0) LA) as (m & [(S1 & S2 & S3)|S1]); [|lia].
  cbn [app] in S2, S3. rewrite <- not_discarded_eq in S1.
  destruct (next_le_all f (Z.to_nat (p_look_head p)) (not_discarded p f) next m (filter (fun s => negb (discards p f s)) unread) S1 S3 WO S2) with (s := s) as (c & d & N & Le).
  { intros i (x & Ix & <-). apply (scan_all_seen _ _ _ _ _ _ _ _ LA).
    assert (Ix' : In x (not_discarded p f)) by (rewrite S1; apply in_or_app; right; exact Ix).
    apply filter_In in Ix'. eapply Forall_forall in SB; [exact SB|apply Ix']. }
  { exact Id. }
  rewrite (map_comp _ _ _ _ _ c d N). rewrite (proj2 (map_src _ _ _ _ _)).
  pose proof (join_ge ends starts L (s_stream s) ltac:(rewrite Len; exact Hi)) as J.
  unfold ends at 1 in J. rewrite nth_idx in J by exact Hi. lia.
Qed.
Lemma file_end : forall p n prev f os k, edit_file p n prev f = Done (os, k) ->
  forall i, ends_at f i os 0 0 (k i).
Proof.
  intros p n prev f os k E i. unfold edit_file in E. destruct (look_ahead p f n (fun _ => None) 0 (f_samples f)) as [|next unread] eqn:LA; [discriminate E|].
  cbv zeta in E. apply (loop_track _ _ _ _ _ _ _ _ _ _ _ E).
Qed.
Lemma file_complete : forall p n prev f os k, streams_below n f -> in_decoding_order f (f_samples f) -> edit_file p n prev f = Done (os, k) ->
  map o_src os = filter (kept p f) (f_samples f).
Proof.
  intros p n prev f os k SB (DO & DP) E. unfold edit_file in E. destruct (look_ahead p f n (fun _ => None) 0 (f_samples f)) as [|next unread] eqn:LA; [discriminate E|].
  cbv zeta in E.
  destruct (loop_src0 _ _ _ _ _ _ (f_samples f) _ _ _ E) as (l1 & l2 & E1 & E2 & E3).
  rewrite E2, map_map. rewrite (map_ext _ (fun s => s)) by (intros a; apply map_src). rewrite map_id, E1, filter_app.
  replace (filter (kept p f) l2) with (@nil sample); [rewrite app_nil_r; reflexivity|].
  symmetry. destruct E3 as [->|(P & R)]; [reflexivity|].
  assert (Z0 : forall a b, l2 = a ++ b -> filter (kept p f) b = []).
  { intros a b. revert a. induction b as [|s b IH]; intros a Eb; [reflexivity|]. cbn [filter].
    assert (Is : In s (f_samples f)) by (rewrite E1, Eb; apply in_or_app; right; apply in_or_app; right; left; reflexivity).
    destruct (R (s_stream s)) as (x & Ix & Q & G). { eapply Forall_forall in SB; [exact SB|exact Is]. }
    assert (D : s_dec x <= s_dec s). { apply (DO (l1 ++ a) s b x); [rewrite E1, Eb, app_assoc; reflexivity|apply in_or_app; left; exact Ix|exact Q]. }
    assert (D2 : s_dec s <= pres f s) by (eapply Forall_forall in DP; [exact DP|exact Is]).
    assert (K : kept p f s = false). { rewrite kept_eq. apply andb_false_intro2. lia. }
    rewrite K. apply (IH (a ++ [s])). rewrite Eb, <- app_assoc. reflexivity. }
  apply (Z0 []). reflexivity.
Qed.

(** a file whose outputs can be followed by another's *)
Lemma all_ok : forall n fs prev res, edit_all n prev fs = Done res ->
  Forall (fun pf => streams_below n (snd pf) /\ well_ordered (fst pf) (snd pf) /\ Forall (fun s => 0 <= dur_of (snd pf) s) (f_samples (snd pf))) fs ->
  (forall os i, In os res -> (i < n)%nat -> exists o, of_stream i os o /\ 0 < o_comp o) ->
  (forall b B i o, nth_error res b = Some B -> (i < n)%nat -> of_stream i B o -> k_comp (prev i) + k_dur (prev i) <= o_comp o)
  /\ (forall a b A B p f i, (a < b)%nat -> nth_error res a = Some A -> nth_error res b = Some B -> nth_error fs a = Some (p, f) -> (i < n)%nat ->
      exists last, of_stream i A last /\ (forall o, of_stream i A o -> o_comp o <= o_comp last)
        /\ forall o, of_stream i B o -> o_comp last + dur_of f (o_src last) <= o_comp o).
Proof.
  intros n. induction fs as [|(p & f) fs IH]; intros prev res E H P.
  - injection E as <-. split; intros b; intros; destruct b; discriminate.
  - cbn [edit_all] in E. destruct (edit_file p n prev f) as [|(os & k)] eqn:EF; [discriminate E|].
    destruct (edit_all n k fs) as [|res'] eqn:EA; [discriminate E|]. injection E as <-.
    pose proof (Forall_inv H) as (SB & WO & DU). cbn [fst snd] in SB, WO, DU. pose proof (Forall_inv_tail H) as H'.
    destruct (IH k res' EA H' ltac:(intros os' i I Hi; apply P; [right; exact I|exact Hi])) as (I1 & I2).
    pose proof (file_no_overlap _ _ _ _ _ _ SB WO EF) as NO.
    assert (LA : forall i, (i < n)%nat -> exists o, of_stream i os o /\ o_comp o = k_comp (k i) /\ k_dur (k i) = dur_of f (o_src o) /\ 0 <= k_dur (k i) /\ forall x, of_stream i os x -> o_comp x <= o_comp o).
    { intros i Hi. destruct (P os i (or_introl eq_refl) Hi) as (o1 & O1 & Pos). destruct (file_end _ _ _ _ _ _ EF i) as (A & B & C).
      pose proof (B o1 O1) as B1. destruct C as [(C & _)|(o & O & C1 & C2)]; [lia|]. exists o. split; [exact O|]. split; [exact C1|]. split; [exact C2|]. split.
      - rewrite C2. destruct O as (O & _). pose proof EF as EF'. unfold edit_file in EF'. destruct (look_ahead p f n (fun _ => None) 0 (f_samples f)) as [|next unread]; [discriminate EF'|]. cbv zeta in EF'.
        destruct (loop_src0 _ _ _ _ _ _ (f_samples f) _ _ _ EF') as (l1 & l2 & E1 & E2 & _). rewrite E2 in O. apply in_map_iff in O. destruct O as (s & <- & Hs).
        rewrite (proj1 (map_src _ _ _ _ _)). apply filter_In in Hs. eapply Forall_forall in DU; [exact DU|]. rewrite E1. apply in_or_app; left; apply Hs.
      - rewrite C1. exact B. }
    split.
    + intros [|b] B i o Nb Hi O; cbn [nth_error] in Nb.
      * injection Nb as <-. apply NO; exact O.
      * destruct (LA i Hi) as (x & X & X1 & X2 & X3 & _). pose proof (I1 b B i o Nb Hi O). pose proof (NO i x X). lia.
    + intros [|a] [|b] A B p' f' i Lt Na Nb Nf Hi; try lia; cbn [nth_error] in *.
      * injection Na as <-. injection Nf as <- <-. destruct (LA i Hi) as (x & X & X1 & X2 & X3 & X4). exists x. split; [exact X|]. split; [exact X4|].
        intros o O. pose proof (I1 b B i o Nb Hi O). lia.
      * apply (I2 a b A B p' f' i); try assumption. lia.
Qed.

(** short files *)
Lemma scan_long : forall p f n l next cur next' unread, (0 < n)%nat -> 0 <= cur -> look_ahead p f n next cur l = Found next' unread ->
  p_look_head p - cur <= Z.of_nat (length l).
Proof.
  intros p f n. induction l as [|s l IH]; intros next cur next' unread N C E; [discriminate E|].
  cbn [look_ahead] in E. cbn [length]. destruct (discards p f s).
  - destruct (f_rap f (s_stream s)); [discriminate E|]. pose proof (IH _ _ _ _ N C E). lia.
  - destruct (match next (s_stream s) with None => true | Some (c, _) => pres f s <? c end).
    { pose proof (IH _ _ _ _ N (Z.le_refl 0) E). lia. }
    destruct (unseen n next || (cur + 1 <? p_look_head p) && Nat.ltb 0 n) eqn:G.
    { assert (C1 : 0 <= cur + 1) by lia. pose proof (IH _ _ _ _ N C1 E). lia. }
    apply orb_false_elim in G. destruct G as (_ & G). replace (Nat.ltb 0 n) with true in G by (symmetry; apply Nat.ltb_lt; exact N).
    rewrite andb_true_r in G. lia.
Qed.
Lemma scan_long0 : forall p f n l next' unread, (0 < n)%nat -> look_ahead p f n (fun _ => None) 0 l = Found next' unread ->
  p_look_head p < Z.of_nat (length l).
Proof.
  intros p f n. induction l as [|s l IH]; intros next' unread N E; [discriminate E|].
  cbn [look_ahead] in E. cbn [length]. destruct (discards p f s).
  - destruct (f_rap f (s_stream s)); [discriminate E|]. pose proof (IH _ _ N E). lia.
  - pose proof (scan_long _ _ _ _ _ _ _ _ N (Z.le_refl 0) E). lia.
Qed.
