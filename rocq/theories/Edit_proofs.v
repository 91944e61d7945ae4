(** Lemmas on joining clips. *)
From Coq Require Import ZifyNat.
From Verif Require Import Util Edit_model.
Local Open Scope Z_scope.

Lemma nth_diffs : forall es ss me ms i, length es = length ss -> (i < length es)%nat ->
  nth i (diffs me ms es ss) 0 = nth i es 0 - me + (ms - nth i ss 0).
Proof.
  induction es as [|e es IH]; intros [|s ss] me ms i L H; cbn [length] in *; try lia.
  destruct i; cbn [diffs nth]; [reflexivity|]. apply IH; lia.
Qed.
Lemma length_diffs : forall es ss me ms, length es = length ss -> length (diffs me ms es ss) = length es.
Proof. induction es as [|e es IH]; intros [|s ss] me ms L; cbn [length diffs] in *; try lia. rewrite IH; lia. Qed.
Lemma fold_max : forall l a, a <= fold_left Z.max l a /\ (forall x, In x l -> x <= fold_left Z.max l a) /\ (fold_left Z.max l a = a \/ In (fold_left Z.max l a) l).
Proof.
  induction l as [|y l IH]; intros a; cbn [fold_left In].
  - split; [lia|]. split; [intros x []|left; reflexivity].
  - destruct (IH (Z.max a y)) as (A & B & C). split; [lia|]. split.
    + intros x [->|Hx]; [lia|apply B; exact Hx].
    + destruct C as [C|C]; [|right; right; exact C]. rewrite C. destruct (Z.max_spec a y) as [[? ->]|[? ->]]; [right; left; reflexivity|left; reflexivity].
Qed.
Lemma max_elt_ub : forall l x, In x l -> x <= max_elt l.
Proof. intros [|a l] x H; [destruct H|]. cbn [max_elt]. destruct (fold_max l a) as (A & B & _). destruct H as [->|H]; [exact A|apply B; exact H]. Qed.
Lemma max_elt_in : forall l, l <> [] -> In (max_elt l) l.
Proof. intros [|a l] H; [contradiction|]. cbn [max_elt]. destruct (fold_max l a) as (_ & _ & [->|C]); [left; reflexivity|right; exact C]. Qed.

Section Join.
  Variables ends starts : list Z.
  Hypothesis L : length ends = length starts.
  Let me := max_end ends. Let ms := min_start starts.
  Let d := diffs me ms ends starts.
  Lemma join_eq : forall i, (i < length ends)%nat -> join_times ends starts i = nth i starts 0 + (max_elt d + me - ms).
  Proof.
    intros i H. unfold join_times, get_join_time, compute. cbn [j_ends j_starts j_diffs j_min app]. fold me ms d.
    unfold d at 1. rewrite nth_diffs by assumption. lia.
  Qed.
  Lemma join_ge : forall i, (i < length ends)%nat -> nth i ends 0 <= join_times ends starts i.
  Proof.
    intros i H. rewrite join_eq by exact H. pose proof (max_elt_ub d (nth i d 0)) as M.
    unfold d in M at 2 4. fold d in M. 
    assert (I : In (nth i d 0) d) by (apply nth_In; unfold d; rewrite length_diffs; assumption).
    pose proof (max_elt_ub d _ I) as M'. unfold d in M' at 1. rewrite nth_diffs in M' by assumption. lia.
  Qed.
  Lemma join_some : ends <> [] -> exists i, (i < length ends)%nat /\ join_times ends starts i = nth i ends 0.
  Proof.
    intros N. assert (D : d <> []).
    { intros E. apply (f_equal (@length Z)) in E. unfold d in E. rewrite length_diffs in E by assumption. destruct ends; [contradiction|discriminate E]. }
    destruct (In_nth d _ 0 (max_elt_in d D)) as (i & Hi & E). unfold d in Hi. rewrite length_diffs in Hi by assumption.
    exists i. split; [exact Hi|]. rewrite join_eq by exact Hi. rewrite <- E. unfold d at 1. rewrite nth_diffs by assumption. lia.
  Qed.
End Join.

(** * the look ahead *)
Definition same (s : sample) (s' : sample) : Prop := s_stream s' = s_stream s.
(** [next] is the earliest presentation of each stream among [seen] *)
Definition next_min (f : file) (next : nat -> option (Z * Z)) (seen : list sample) : Prop :=
  (forall s, In s seen -> exists c d, next (s_stream s) = Some (c, d) /\ c <= pres f s)
  /\ (forall i c d, next i = Some (c, d) -> exists s, In s seen /\ s_stream s = i /\ pres f s = c).
Lemma upd_eq : forall {A} (m : nat -> A) k v, upd m k v k = v.
Proof. intros. unfold upd. rewrite Nat.eqb_refl. reflexivity. Qed.
Lemma upd_neq : forall {A} (m : nat -> A) k v x, x <> k -> upd m k v x = m x.
Proof. intros. unfold upd. destruct (Nat.eqb_spec x k); [contradiction|reflexivity]. Qed.
Lemma unseen_false : forall n next i, unseen n next = false -> (i < n)%nat -> exists x, next i = Some x.
Proof.
  induction n as [|n IH]; intros next i U H; [lia|]. cbn [unseen] in U. destruct (next n) as [x|] eqn:E; [|discriminate U].
  destruct (Nat.eq_dec i n) as [->|N]; [exists x; exact E|]. apply IH; [exact U|lia].
Qed.
Lemma from_start_eq : forall p f s, from_start p f s = negb (discards p f s).
Proof. intros. unfold from_start, discards, shown. change (s_comp s + f_offset f (s_stream s)) with (pres f s). destruct (p_discard p); [|rewrite andb_false_r; reflexivity]. rewrite andb_true_r. destruct (Z.leb_spec (p_start p) (pres f s)), (Z.ltb_spec (pres f s) (p_start p)); try lia; reflexivity. Qed.
Lemma kept_eq : forall p f s, kept p f s = negb (discards p f s) && ((p_end p <=? 0) || (pres f s <? p_end p)).
Proof. intros. unfold kept. rewrite from_start_eq. reflexivity. Qed.
Lemma not_discarded_eq : forall p f, not_discarded p f = filter (fun s => negb (discards p f s)) (f_samples f).
Proof. intros. unfold not_discarded. apply filter_ext. intros. apply from_start_eq. Qed.
Lemma scan_spec : forall p f n l next cur seen next' unread,
  next_min f next seen -> 0 <= cur -> (Z.to_nat cur <= length seen)%nat ->
  look_ahead p f n next cur l = Found next' unread ->
  exists l1, filter (fun s => negb (discards p f s)) l = l1 ++ filter (fun s => negb (discards p f s)) unread
    /\ next_min f next' (seen ++ l1) /\ (Z.to_nat (p_look_head p) <= length (seen ++ l1))%nat \/ n = 0%nat.
Proof.
  intros p f n. induction l as [|s l IH]; intros next cur seen next' unread M C0 C E; [discriminate E|].
  cbn [look_ahead] in E. destruct (discards p f s) eqn:D.
  - destruct (f_rap f (s_stream s)); [discriminate E|].
    destruct (IH next cur seen next' unread M C0 C E) as (l1 & [X|X]); [|exists []; right; exact X].
    exists l1. left. cbn [filter]. rewrite D. exact X.
  - assert (F : forall seen', seen' = seen ++ [s] ->
       (exists l1, filter (fun s => negb (discards p f s)) l = l1 ++ filter (fun s => negb (discards p f s)) unread
         /\ next_min f next' (seen' ++ l1) /\ (Z.to_nat (p_look_head p) <= length (seen' ++ l1))%nat \/ n = 0%nat) ->
       exists l1, filter (fun s => negb (discards p f s)) (s :: l) = l1 ++ filter (fun s => negb (discards p f s)) unread
    /\ next_min f next' (seen ++ l1) /\ (Z.to_nat (p_look_head p) <= length (seen ++ l1))%nat \/ n = 0%nat).
    { intros seen' -> (l1 & [(A & B & G)|X]); [|exists []; right; exact X]. exists (s :: l1). left. cbn [filter]. rewrite D. cbn [negb].
      split; [cbn [app]; rewrite A; reflexivity|]. rewrite <- app_assoc in B, G. split; [exact B|exact G]. }
    destruct M as (M1 & M2).
    destruct (match next (s_stream s) with None => true | Some (c, _) => pres f s <? c end) eqn:B.
    + eapply F; [reflexivity|]. eapply (IH _ 0); [|lia|lia|exact E]. split.
      * intros x Hx. apply in_app_or in Hx. destruct (Nat.eq_dec (s_stream x) (s_stream s)) as [Q|Q].
        -- rewrite Q, upd_eq. exists (pres f s), (s_dec s). split; [reflexivity|]. destruct Hx as [Hx|[<-|[]]]; [|lia].
           destruct (M1 x Hx) as (c & d & E1 & L1). rewrite Q in E1. rewrite E1 in B. lia.
        -- rewrite upd_neq by exact Q. destruct Hx as [Hx|[<-|[]]]; [apply M1; exact Hx|contradiction Q; reflexivity].
      * intros i c d. destruct (Nat.eq_dec i (s_stream s)) as [->|Q]; [rewrite upd_eq|rewrite upd_neq by exact Q].
        -- intros X. injection X as <- <-. exists s. split; [apply in_or_app; right; left; reflexivity|]. split; reflexivity.
        -- intros X. destruct (M2 i c d X) as (y & Hy & Y). exists y. split; [apply in_or_app; left; exact Hy|exact Y].
    + assert (M' : next_min f next (seen ++ [s])).
      { split.
        - intros x Hx. apply in_app_or in Hx. destruct Hx as [Hx|[<-|[]]]; [apply M1; exact Hx|].
          destruct (next (s_stream s)) as [[c d]|]; [|discriminate B]. exists c, d. split; [reflexivity|lia].
        - intros i c d X. destruct (M2 i c d X) as (y & Hy & Y). exists y. split; [apply in_or_app; left; exact Hy|exact Y]. }
      destruct (unseen n next || (cur + 1 <? p_look_head p) && Nat.ltb 0 n) eqn:G.
      * eapply F; [reflexivity|]. eapply (IH _ (cur + 1)); [exact M'|lia| |exact E]. rewrite app_length. cbn [length]. lia.
      * eapply F; [reflexivity|]. injection E as <- <-. exists []. rewrite app_nil_r. apply orb_false_elim in G. destruct G as (G1 & G2).
        destruct n as [|n]; [right; reflexivity|left]. split; [reflexivity|]. split; [exact M'|].
        rewrite app_length. cbn [length]. change (Nat.ltb 0 (S n)) with true in G2. rewrite andb_true_r in G2. lia.
Qed.
Lemma scan_all_seen : forall p f n l next cur next' unread, look_ahead p f n next cur l = Found next' unread ->
  forall i, (i < n)%nat -> exists x, next' i = Some x.
Proof.
  intros p f n. induction l as [|s l IH]; intros next cur next' unread E i H; [discriminate E|].
  cbn [look_ahead] in E. destruct (discards p f s).
  - destruct (f_rap f (s_stream s)); [discriminate E|]. eapply IH; eassumption.
  - destruct (match next (s_stream s) with None => true | Some (c, _) => pres f s <? c end); [eapply IH; eassumption|].
    destruct (unseen n next || (cur + 1 <? p_look_head p) && Nat.ltb 0 n) eqn:G; [eapply IH; eassumption|].
    injection E as <- <-. apply orb_false_elim in G. eapply unseen_false; [apply G|exact H].
Qed.
Lemma in_split_first : forall (s : sample) l, In s l -> exists l1 l2, l = l1 ++ s :: l2.
Proof. intros s l H. apply in_split. exact H. Qed.
(** with bounded reordering nothing is earlier than [next] *)
Lemma next_le_all : forall f w l next l1 l2, l = l1 ++ l2 -> (w <= length l1)%nat -> reorders_within w f l -> next_min f next l1 ->
  (forall i, (exists s, In s l2 /\ s_stream s = i) -> exists x, next i = Some x) ->
  forall s, In s l -> exists c d, next (s_stream s) = Some (c, d) /\ c <= pres f s.
Proof.
  intros f w l next l1 l2 -> W R M S.
  enough (X : forall a b, l2 = a ++ b -> forall s, In s (l1 ++ a) -> exists c d, next (s_stream s) = Some (c, d) /\ c <= pres f s).
  { apply (X l2 []). symmetry. apply app_nil_r. }
  induction a as [|a x IH] using rev_ind; intros b E s Hs.
  - rewrite app_nil_r in Hs. apply M. exact Hs.
  - rewrite <- app_assoc in E. cbn [app] in E. rewrite app_assoc in Hs. apply in_app_or in Hs. destruct Hs as [Hs|[->|[]]]; [eapply IH; eassumption|].
    assert (Hs : In s l2) by (rewrite E; apply in_or_app; right; left; reflexivity).
    destruct (S (s_stream s) (ex_intro _ s (conj Hs eq_refl))) as ((c & d) & N).
    destruct M as (M1 & M2). destruct (M2 _ _ _ N) as (s' & I' & Q & _).
    destruct (R (l1 ++ x) s b s') as (s'' & I'' & Q'' & P'').
    + rewrite E, app_assoc. reflexivity.
    + rewrite app_length. lia.
    + apply in_or_app; left; exact I'.
    + exact Q.
    + destruct (IH (s :: b) E s'' I'') as (c2 & d2 & N2 & P2). rewrite Q'' in N2. exists c2, d2. split; [exact N2|]. change (shown f s'') with (pres f s'') in P''. change (shown f s) with (pres f s) in P''. lia.
Qed.
