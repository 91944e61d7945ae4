(** Lemmas on the index of a dynamic stream. *)
From Coq Require Import String ZifyNat.
From Verif Require Import Util Dec_spec Str_model Points_model.
Local Open Scope Z_scope.

Lemma put_keys : forall {A} k (v : A) m x, In x (put k v m) -> x = (k, v) \/ In x m.
Proof.
  induction m as [|(k' & v') r IH]; intros x H; cbn [put] in H.
  - destruct H as [<-|[]]. left; reflexivity.
  - destruct (k <? k'); [destruct H as [<-|H]; [left; reflexivity|right; exact H]|].
    destruct (k =? k'); [destruct H as [<-|H]; [left; reflexivity|right; right; exact H]|].
    destruct H as [<-|H]; [right; left; reflexivity|]. destruct (IH x H) as [->|I]; [left; reflexivity|right; right; exact I].
Qed.
Lemma put_sorted : forall {A} k (v : A) m, sorted m -> sorted (put k v m).
Proof.
  induction m as [|(k' & v') r IH]; intros S; cbn [put]; [cbn; split; constructor|].
  cbn [sorted] in S. destruct S as (F & S). destruct (Z.ltb_spec k k').
  - cbn [sorted]. split; [|split; assumption]. constructor; [exact H|]. eapply Forall_impl; [|exact F]. cbn. intros; lia.
  - destruct (Z.eqb_spec k k') as [->|N]; [cbn [sorted]; split; assumption|]. cbn [sorted]. split; [|apply IH; exact S].
    apply Forall_forall. intros x Hx. destruct (put_keys _ _ _ _ Hx) as [->|I]; [cbn; lia|]. eapply Forall_forall in F; [exact F|exact I].
Qed.
Lemma get_put_same : forall {A} k (v : A) m, get k (put k v m) = Some v.
Proof.
  induction m as [|(k' & v') r IH]; cbn [put get]; [rewrite Z.eqb_refl; reflexivity|].
  destruct (Z.ltb_spec k k'); [cbn [get]; rewrite Z.eqb_refl; reflexivity|]. destruct (Z.eqb_spec k k') as [->|N]; cbn [get]; [rewrite Z.eqb_refl; reflexivity|].
  replace (k =? k') with false by lia. exact IH.
Qed.
Lemma get_put_other : forall {A} k k2 (v : A) m, k2 <> k -> get k2 (put k v m) = get k2 m.
Proof.
  induction m as [|(k' & v') r IH]; intros N; cbn [put get]; [replace (k2 =? k) with false by lia; reflexivity|].
  destruct (Z.ltb_spec k k'); [cbn [get]; replace (k2 =? k) with false by lia; reflexivity|].
  destruct (Z.eqb_spec k k') as [->|N']; cbn [get]; [replace (k2 =? k') with false by lia; reflexivity|]. rewrite IH by exact N. reflexivity.
Qed.
Lemma lb_spec : forall {A} t (m : zmap A) before b f, lower_bound t before m = (b, f) ->
  exists x, m = x ++ f /\ b = rev x ++ before /\ Forall (fun p => fst p < t) x /\ match f with [] => True | p :: _ => t <= fst p end.
Proof.
  induction m as [|(k & v) r IH]; intros before b f E; cbn [lower_bound] in E.
  - injection E as <- <-. exists []. repeat split. constructor.
  - destruct (Z.ltb_spec k t).
    + destruct (IH _ _ _ E) as (x & -> & -> & F & G). exists ((k, v) :: x). split; [reflexivity|]. split; [cbn [rev]; rewrite <- app_assoc; reflexivity|].
      split; [constructor; [exact H|exact F]|exact G].
    + injection E as <- <-. exists []. split; [reflexivity|]. split; [reflexivity|]. split; [constructor|cbn; lia].
Qed.
Lemma sorted_app : forall {A} (a b : zmap A), sorted (a ++ b) <-> sorted a /\ sorted b /\ forall x y, In x a -> In y b -> fst x < fst y.
Proof.
  induction a as [|(k & v) a IH]; intros b; cbn [app sorted].
  - split; [intros H; repeat split; [exact H|intros x y []]|tauto].
  - rewrite Forall_app, IH. split.
    + intros ((F1 & F2) & S1 & S2 & H). repeat split; try assumption. intros x y [<-|Hx] Hy; [eapply Forall_forall in F2; [exact F2|exact Hy]|apply H; assumption].
    + intros ((F1 & S1) & S2 & H). repeat split; try assumption; [|intros x y Hx Hy; apply H; [right; exact Hx|exact Hy]].
      apply Forall_forall. intros y Hy. apply (H (k, v) y); [left; reflexivity|exact Hy].
Qed.
(** the index around [t] *)
Lemma lb_split : forall {A} t (m : zmap A) b f, sorted m -> lower_bound t [] m = (b, f) ->
  m = rev b ++ f /\ Forall (fun p => fst p < t) b /\ Forall (fun p => t <= fst p) f
  /\ match b with [] => True | p :: r => Forall (fun q => fst q < fst p) r end
  /\ match f with [] => True | p :: r => Forall (fun q => fst p < fst q) r end /\ sorted f.
Proof.
  intros A t m b f S E. destruct (lb_spec _ _ _ _ _ E) as (x & M & B & F & G). rewrite app_nil_r in B. subst b. rewrite rev_involutive.
  split; [exact M|]. subst m. apply sorted_app in S. destruct S as (S1 & S2 & S3).
  split; [apply Forall_forall; intros p Hp; apply in_rev in Hp; eapply Forall_forall in F; [exact F|exact Hp]|].
  split.
  { destruct f as [|(k & v) r]; [constructor|]. cbn [sorted] in S2. constructor; [exact G|]. destruct S2 as (S2 & _). eapply Forall_impl; [|exact S2]. cbn in *. intros; lia. }
  split.
  { destruct (rev x) as [|p r] eqn:R; [exact I|]. assert (X : x = rev r ++ [p]) by (rewrite <- (rev_involutive x), R; reflexivity). rewrite X in S1. apply sorted_app in S1.
    destruct S1 as (_ & _ & S1). apply Forall_forall. intros q Hq. apply S1; [apply in_rev in Hq; exact Hq|left; reflexivity]. }
  split; [destruct f as [|(k & v) r]; [exact I|apply S2]|exact S2].
Qed.
Lemma closer_spec : forall t k c, snd c = Z.abs (fst c - t) -> snd (closer t k c) = Z.abs (fst (closer t k c) - t)
  /\ snd (closer t k c) <= snd c /\ snd (closer t k c) <= Z.abs (k - t) /\ (fst (closer t k c) = fst c \/ fst (closer t k c) = k).
Proof.
  intros t k (target & dist) H. cbn [fst snd] in H. unfold closer.
  destruct ((t <? k) && (k - t <? dist)) eqn:A; destruct ((k <=? t) && (t - k <? _)) eqn:B; cbn [fst snd]; try lia.
Qed.
Lemma closest_ok : forall {A} (m : zmap A) t, sorted m -> (1 < length m)%nat -> t <= maxt m ->
  exists k, get_closest m t = Value k /\ has_key m k /\ forall k', has_key m k' -> Z.abs (k - t) <= Z.abs (k' - t).
Proof.
  intros A m t S L T. unfold get_closest. destruct (lower_bound t [] m) as (b & f) eqn:E.
  destruct (lb_split t m b f S E) as (M & Fb & Ff & Sb & Sf & Sof).
  assert (Keys : forall k', has_key m k' -> (exists p, In p b /\ fst p = k') \/ (exists p, In p f /\ fst p = k')).
  { intros k' H. unfold has_key in H. apply in_map_iff in H. destruct H as (p & <- & Hp). rewrite M in Hp. apply in_app_or in Hp. destruct Hp as [Hp|Hp]; [left; exists p; split; [apply in_rev; exact Hp|reflexivity]|right; exists p; split; [exact Hp|reflexivity]]. }
  destruct f as [|(k & v) after].
  { exfalso. rewrite app_nil_r in M. destruct m as [|p0 m0]; [cbn [length] in L; lia|].
    assert (X : In (maxt (p0 :: m0)) (map fst (p0 :: m0))) by (unfold maxt; destruct (exists_last (l := map fst (p0 :: m0)) ltac:(discriminate)) as (q & z & ->); rewrite last_last; apply in_or_app; right; left; reflexivity).
    destruct (Keys _ X) as [(p & Hp & Q)|(p & [] & _)]. eapply Forall_forall in Fb; [|exact Hp]. lia. }
  pose proof (Forall_inv Ff) as Hk. cbn [fst] in Hk.
  assert (Km : has_key m k) by (unfold has_key; rewrite M, map_app; apply in_or_app; right; left; reflexivity).
  assert (After : forall p, In p after -> k < fst p) by (intros p Hp; eapply Forall_forall in Sf; [exact Sf|exact Hp]).
  assert (InAfter : forall p, In p after -> has_key m (fst p)) by (intros p Hp; unfold has_key; rewrite M, map_app; apply in_or_app; right; right; apply in_map; exact Hp).
  assert (C0 : snd (k, k - t) = Z.abs (fst (k, k - t) - t)) by (cbn [fst snd]; lia).
  (* the answer is at least as close as the entry at or after [t] and the one before *)
  enough (Fin : forall c, snd c = Z.abs (fst c - t) -> snd c <= k - t -> match b with [] => True | p :: _ => snd c <= t - fst p end -> has_key m (fst c) ->
     has_key m (fst c) /\ forall k', has_key m k' -> Z.abs (fst c - t) <= Z.abs (k' - t)).
  { destruct b as [|(bk & bv) b'].
    - destruct after as [|a1 [|(ak & av) after]].
      + cbn [rev app] in M. subst m. cbn [length] in L. lia.
      + exists k. split; [reflexivity|]. apply (Fin (k, k - t)); cbn [fst snd]; try lia; try assumption.
      + destruct (closer_spec t ak (k, k - t) C0) as (X1 & X2 & X3 & X4). eexists. split; [reflexivity|]. apply Fin; [exact X1|exact X2|exact I|].
        destruct X4 as [->| ->]; [exact Km|apply (InAfter (ak, av)); right; left; reflexivity].
    - pose proof (Forall_inv Fb) as Hb. cbn [fst] in Hb.
      assert (Kb : has_key m bk) by (unfold has_key; rewrite M, map_app; apply in_or_app; left; cbn [rev]; rewrite map_app; apply in_or_app; right; left; reflexivity).
      destruct (closer_spec t bk (k, k - t) C0) as (X1 & X2 & X3 & X4). cbn [fst snd] in X2, X4.
      assert (Kc : has_key m (fst (closer t bk (k, k - t)))) by (destruct X4 as [->| ->]; assumption).
      destruct after as [|(ak & av) after].
      + eexists. split; [reflexivity|]. apply Fin; try assumption. cbn [fst]. lia.
      + destruct (closer_spec t ak _ X1) as (Y1 & Y2 & Y3 & Y4). eexists. split; [reflexivity|]. apply Fin; [exact Y1|lia|cbn [fst]; lia|].
        destruct Y4 as [->| ->]; [exact Kc|apply (InAfter (ak, av)); left; reflexivity]. }
  intros c C1 C2 C3 C4. split; [exact C4|]. intros k' H'. destruct (Keys k' H') as [(p & Hp & <-)|(p & Hp & <-)].
  - destruct b as [|q b']; [destruct Hp|]. assert (fst p <= fst q). { destruct Hp as [->|Hp]; [lia|]. eapply Forall_forall in Sb; [|exact Hp]. cbn in Sb. lia. }
    eapply Forall_forall in Fb; [|exact Hp]. cbn in Fb. lia.
  - assert (k <= fst p) by (destruct Hp as [<-|Hp]; [cbn; lia|apply After in Hp; lia]). lia.
Qed.
(** the path in force at [t] *)
Lemma path_ok : forall {A} (m : zmap A) t, sorted m -> m <> [] ->
  exists p, get_path m t = Some p /\
   ((exists k, In (k, p) m /\ k <= t /\ forall k', has_key m k' -> k' <= t -> k' <= k) \/ ((forall k', has_key m k' -> t < k') /\ exists k, In (k, p) m /\ forall k', has_key m k' -> k <= k')).
Proof.
  intros A m t S N. unfold get_path. destruct (lower_bound t [] m) as (b & f) eqn:E.
  destruct (lb_split t m b f S E) as (M & Fb & Ff & Sb & Sf & _).
  assert (Keys : forall k', has_key m k' -> (exists p, In p b /\ fst p = k') \/ (exists p, In p f /\ fst p = k')).
  { intros k' H. unfold has_key in H. apply in_map_iff in H. destruct H as (p & <- & Hp). rewrite M in Hp. apply in_app_or in Hp. destruct Hp as [Hp|Hp]; [left; exists p; split; [apply in_rev; exact Hp|reflexivity]|right; exists p; split; [exact Hp|reflexivity]]. }
  assert (Inb : forall p, In p b -> In p m) by (intros p Hp; rewrite M; apply in_or_app; left; apply in_rev in Hp; exact Hp).
  assert (Inf : forall p, In p f -> In p m) by (intros p Hp; rewrite M; apply in_or_app; right; exact Hp).
  assert (F0 : forall k p r, f = (k, p) :: r -> forall q, In q f -> k <= fst q).
  { intros k p r -> q [<-|Hq]; [cbn; lia|]. eapply Forall_forall in Sf; [|exact Hq]. cbn in Sf. lia. }
  destruct b as [|(bk & bv) b'].
  - destruct f as [|(k & p) r]; [cbn [rev app] in M; subst m; contradiction|]. exists p. split; [reflexivity|].
    pose proof (Forall_inv Ff) as Hk. cbn [fst] in Hk. destruct (Z.eq_dec k t) as [->|D].
    + left. exists t. split; [apply Inf; left; reflexivity|]. split; [lia|]. intros; assumption.
    + right. split.
      * intros k' H'. destruct (Keys k' H') as [(q & [] & _)|(q & Hq & <-)]. pose proof (F0 k p r eq_refl q Hq). lia.
      * exists k. split; [apply Inf; left; reflexivity|]. intros k' H'. destruct (Keys k' H') as [(q & [] & _)|(q & Hq & <-)]. exact (F0 k p r eq_refl q Hq).
  - assert (Bmax : forall q, In q ((bk, bv) :: b') -> fst q <= bk). { intros q [<-|Hq]; [cbn; lia|]. eapply Forall_forall in Sb; [|exact Hq]. cbn in Sb. lia. }
    pose proof (Forall_inv Fb) as Hb. cbn [fst] in Hb.
    assert (UseB : (forall q, In q f -> t < fst q) -> exists k, In (k, bv) m /\ k <= t /\ forall k', has_key m k' -> k' <= t -> k' <= k).
    { intros G. exists bk. split; [apply Inb; left; reflexivity|]. split; [lia|]. intros k' H' L. destruct (Keys k' H') as [(q & Hq & <-)|(q & Hq & <-)]; [apply Bmax; exact Hq|pose proof (G q Hq); lia]. }
    destruct f as [|(k & p) r].
    + exists bv. split; [reflexivity|]. left. apply UseB. intros q [].
    + pose proof (Forall_inv Ff) as Hk. cbn [fst] in Hk. destruct (Z.eqb_spec k t) as [->|D].
      * exists p. split; [reflexivity|]. left. exists t. split; [apply Inf; left; reflexivity|]. split; [lia|]. intros; assumption.
      * exists bv. split; [reflexivity|]. left. apply UseB. intros q Hq. pose proof (F0 k p r eq_refl q Hq). lia.
Qed.
