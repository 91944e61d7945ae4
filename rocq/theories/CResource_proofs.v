From Coq Require Import ZArith List Bool Arith Lia.
From Verif Require Import CResource_model.
Import ListNotations.
Local Open Scope Z_scope.

Lemma upd_length {A} i (x : A) l : length (upd i x l) = length l.
Proof. revert i; induction l; intros [|i]; cbn; auto. Qed.
Lemma nth_upd {A} i j (x : A) l : nth_error (upd i x l) j =
  if Nat.eqb i j then (match nth_error l i with Some _ => Some x | None => None end) else nth_error l j.
Proof.
  revert i j; induction l as [|y l IH]; intros [|i] [|j]; cbn; auto.
  - destruct (Nat.eqb i j); reflexivity.
Qed.

Definition cnt_of (o : nat) (l : list var) : nat := length (filter (refers o) l).
Lemma cnt_app o l1 l2 : cnt_of o (l1 ++ l2) = (cnt_of o l1 + cnt_of o l2)%nat.
Proof. unfold cnt_of. rewrite filter_app, app_length. reflexivity. Qed.
Definition b2n (b : bool) : nat := if b then 1%nat else 0%nat.
Lemma cnt_upd o i v w l : nth_error l i = Some v -> (cnt_of o (upd i w l) + b2n (refers o v) = cnt_of o l + b2n (refers o w))%nat.
Proof.
  revert i; induction l as [|y l IH]; intros [|i]; cbn [nth_error upd]; try discriminate.
  - intros [= ->]. unfold cnt_of. cbn [filter]. destruct (refers o v), (refers o w); cbn; lia.
  - intros H. specialize (IH i H). unfold cnt_of in *. cbn [filter]. destruct (refers o y); cbn [length]; lia.
Qed.
Lemma cnt_pos o i l : nth_error l i = Some (Ref o) -> (1 <= cnt_of o l)%nat.
Proof.
  intros H. pose proof (cnt_upd o i (Ref o) Null l H) as E. cbn [refers b2n] in E. rewrite Nat.eqb_refl in E. cbn [b2n] in E. lia.
Qed.

(** Invariant, generalised with [d o] the difference still to be accounted for. *)
Definition good (objs : list obj) (count : nat -> nat) : Prop :=
  forall o b, nth_error objs o = Some b -> rc b = Z.of_nat (count o) /\ deleted b = (if Nat.eqb (count o) 0 then 1 else 0)%nat.
Definition closed (s : state) : Prop := forall i o, nth_error (vars s) i = Some (Ref o) -> (o < length (objs s))%nat.
Definition Inv (s : state) : Prop := good (objs s) (fun o => cnt_of o (vars s)) /\ closed s.

Lemma release_good o l count : good l count -> (o < length l)%nat -> (1 <= count o)%nat ->
  exists l', release o l = OK l' /\ length l' = length l /\ good l' (fun p => if Nat.eqb p o then (count p - 1)%nat else count p).
Proof.
  intros G Ho Hc. unfold release. destruct (nth_error l o) as [b|] eqn:E; [|apply nth_error_None in E; lia].
  destruct (G o b E) as [G1 G2]. rewrite G2. replace (Nat.eqb (count o) 0) with false by (symmetry; apply Nat.eqb_neq; lia).
  cbn. eexists. split; [reflexivity|]. split; [apply upd_length|].
  intros p c Hp. rewrite nth_upd in Hp. rewrite (Nat.eqb_sym p o). destruct (Nat.eqb_spec o p) as [->|Hne].
  - rewrite E in Hp. injection Hp as <-. cbn [rc deleted]. rewrite G1. split; [lia|].
    destruct (Z.eqb_spec (Z.of_nat (count p) - 1) 0), (Nat.eqb_spec (count p - 1) 0); lia.
  - exact (G p c Hp).
Qed.
Lemma addRef_good o l count : good l count -> (o < length l)%nat -> (1 <= count o)%nat ->
  exists l', addRef o l = OK l' /\ length l' = length l /\ good l' (fun p => if Nat.eqb p o then (count p + 1)%nat else count p).
Proof.
  intros G Ho Hc. unfold addRef. destruct (nth_error l o) as [b|] eqn:E; [|apply nth_error_None in E; lia].
  destruct (G o b E) as [G1 G2]. rewrite G2. replace (Nat.eqb (count o) 0) with false by (symmetry; apply Nat.eqb_neq; lia).
  cbn. eexists. split; [reflexivity|]. split; [apply upd_length|].
  intros p c Hp. rewrite nth_upd in Hp. rewrite (Nat.eqb_sym p o). destruct (Nat.eqb_spec o p) as [->|Hne].
  - rewrite E in Hp. injection Hp as <-. cbn [rc deleted]. rewrite G1. split; [lia|].
    destruct (Nat.eqb_spec (count p + 1) 0); lia.
  - exact (G p c Hp).
Qed.
Lemma good_ext l c1 c2 : (forall o, (o < length l)%nat -> c1 o = c2 o) -> good l c1 -> good l c2.
Proof.
  intros H G o b E. rewrite <- (H o); [apply (G o b E)|]. apply nth_error_Some. rewrite E. discriminate.
Qed.
Lemma release_var_good v l count : good l count -> (forall o, v = Ref o -> (o < length l)%nat /\ (1 <= count o)%nat) ->
  exists l', release_var v l = OK l' /\ length l' = length l /\ good l' (fun p => (count p - b2n (refers p v))%nat).
Proof.
  intros G H. destruct v as [| |o]; cbn [release_var].
  1,2: exists l; split; [auto|]; split; [auto|]; apply (good_ext l count); [intros; cbn; lia|exact G].
  destruct (H o eq_refl) as [A B]. destruct (release_good o l count G A B) as (l' & E & L & G').
  exists l'. split; [auto|]. split; [auto|]. apply (good_ext l' (fun p => if Nat.eqb p o then (count p - 1)%nat else count p)); [|exact G'].
  intros p _. cbn [refers]. rewrite (Nat.eqb_sym o p). destruct (Nat.eqb p o); cbn [b2n]; lia.
Qed.
Lemma addRef_var_good v l count : good l count -> (forall o, v = Ref o -> (o < length l)%nat /\ (1 <= count o)%nat) ->
  exists l', addRef_var v l = OK l' /\ length l' = length l /\ good l' (fun p => (count p + b2n (refers p v))%nat).
Proof.
  intros G H. destruct v as [| |o]; cbn [addRef_var].
  1,2: exists l; split; [auto|]; split; [auto|]; apply (good_ext l count); [intros; cbn; lia|exact G].
  destruct (H o eq_refl) as [A B]. destruct (addRef_good o l count G A B) as (l' & E & L & G').
  exists l'. split; [auto|]. split; [auto|]. apply (good_ext l' (fun p => if Nat.eqb p o then (count p + 1)%nat else count p)); [|exact G'].
  intros p _. cbn [refers]. rewrite (Nat.eqb_sym o p). destruct (Nat.eqb p o); cbn [b2n]; lia.
Qed.

Lemma good_new l count : good l count -> (count (length l) = 0)%nat ->
  good (l ++ [mkobj 1 0]) (fun p => (count p + b2n (Nat.eqb (length l) p))%nat).
Proof.
  intros G H0 o b E. destruct (Nat.lt_ge_cases o (length l)) as [Hl|Hl].
  - rewrite nth_error_app1 in E by exact Hl. destruct (Nat.eqb_spec (length l) o); [lia|]. cbn [b2n]. rewrite Nat.add_0_r. exact (G o b E).
  - rewrite nth_error_app2 in E by exact Hl. destruct (o - length l)%nat as [|[|]] eqn:Eo; cbn in E; try discriminate.
    injection E as <-. assert (o = length l) by lia. subst o. rewrite Nat.eqb_refl, H0. split; reflexivity.
Qed.
Lemma cnt_fresh s : closed s -> forall o, (length (objs s) <= o)%nat -> cnt_of o (vars s) = 0%nat.
Proof.
  intros HC o Ho. unfold cnt_of. unfold closed in HC.
  destruct (filter (refers o) (vars s)) as [|v r] eqn:E; [reflexivity|exfalso].
  assert (Hin : In v (filter (refers o) (vars s))) by (rewrite E; left; reflexivity).
  apply filter_In in Hin. destruct Hin as [Hin Hr]. destruct v as [| |p]; try discriminate.
  cbn in Hr. apply Nat.eqb_eq in Hr. subst p. destruct (In_nth_error _ _ Hin) as [i Hi]. specialize (HC i o Hi). lia.
Qed.

Lemma closed_var s i o : Inv s -> nth_error (vars s) i = Some (Ref o) -> (o < length (objs s))%nat /\ (1 <= cnt_of o (vars s))%nat.
Proof. intros [G C] H. split; [apply (C i o H)|apply (cnt_pos o i _ H)]. Qed.

(** Which operations are well formed in a state. *)
Definition wf_op (s : state) (o : op) : Prop :=
  let ok i := exists v, nth_error (vars s) i = Some v /\ v <> Gone in
  match o with
  | Default | FromPointer => True
  | Copy i | Destroy i => ok i
  | Create i => nth_error (vars s) i = Some Null
  | Assign i j => ok i /\ ok j
  end.

Lemma nth_app_new {A} (l : list A) x i y : nth_error (l ++ [x]) i = Some y -> nth_error l i = Some y \/ y = x.
Proof.
  intros H. destruct (Nat.lt_ge_cases i (length l)) as [Hl|Hl].
  - rewrite nth_error_app1 in H by exact Hl. auto.
  - rewrite nth_error_app2 in H by exact Hl. destruct (i - length l)%nat as [|[|]]; cbn in H; try discriminate. injection H as ->. auto.
Qed.

Lemma step_ok s o : Inv s -> wf_op s o -> self_assign o = false -> exists s', do_op s o = OK s' /\ Inv s'.
Proof.
  intros HI HW HS. pose proof HI as [G C]. destruct o as [| |i|i|i j|i]; cbn [do_op wf_op self_assign] in *.
  - eexists. split; [reflexivity|]. split.
    + cbn [objs vars]. apply (good_ext _ (fun o => cnt_of o (vars s))); [|exact G]. intros o _. rewrite cnt_app. cbn. lia.
    + intros i o H. cbn [objs vars] in *. apply nth_app_new in H. destruct H as [H|H]; [apply (C i o H)|discriminate].
  - eexists. split; [reflexivity|]. split.
    + cbn [objs vars].
      apply (good_ext _ (fun p => (cnt_of p (vars s) + b2n (Nat.eqb (length (objs s)) p))%nat)).
      * intros o _. rewrite cnt_app. unfold cnt_of at 3. cbn [filter refers]. destruct (Nat.eqb (length (objs s)) o); reflexivity.
      * apply good_new; [exact G|]. apply cnt_fresh; auto.
    + intros i o H. cbn [objs vars] in *. rewrite app_length. cbn [length]. apply nth_app_new in H. destruct H as [H|H].
      * specialize (C i o H). lia.
      * injection H as ->. lia.
  - destruct HW as (v & E & HG). rewrite E.
    destruct (addRef_var_good v (objs s) _ G) as (l' & Er & L & G').
    { intros o ->. apply (closed_var s i o HI E). }
    rewrite Er. cbn [bind].
    destruct v as [| |o]; [congruence| |]; (eexists; split; [reflexivity|]); (split; cbn [objs vars]).
    1,3: eapply good_ext; [|exact G']; intros p _; cbn beta; rewrite cnt_app; unfold cnt_of at 3; cbn [filter]; destruct (refers p _); reflexivity.
    1,2: intros k o' H; cbn [objs vars] in *; rewrite L; apply nth_app_new in H; destruct H as [H|H]; [apply (C k o' H)|].
    + discriminate.
    + injection H as ->. apply (C i o E).
  - rewrite HW. eexists. split; [reflexivity|]. split; cbn [objs vars].
    + apply (good_ext _ (fun p => (cnt_of p (vars s) + b2n (Nat.eqb (length (objs s)) p))%nat)).
      * intros o _. pose proof (cnt_upd o i Null (Ref (length (objs s))) (vars s) HW) as E. cbn [refers b2n] in E. lia.
      * apply good_new; [exact G|]. apply cnt_fresh; auto.
    + intros k o H. cbn [objs vars] in *. rewrite app_length. cbn [length]. rewrite nth_upd, HW in H. destruct (Nat.eqb i k).
      * injection H as <-. lia.
      * specialize (C k o H). lia.
  - destruct HW as [(vi & Ei & HGi) (vj & Ej & HGj)]. rewrite Ei, Ej. apply Nat.eqb_neq in HS.
    destruct (release_var_good vi (objs s) _ G) as (l1 & Er & L1 & G1).
    { intros o ->. apply (closed_var s i o HI Ei). }
    destruct (addRef_var_good vj l1 _ G1) as (l2 & Ea & L2 & G2).
    { intros o ->. destruct (closed_var s j o HI Ej) as [A B]. split; [lia|].
      pose proof (cnt_upd o i vi Gone (vars s) Ei) as EE. cbn [refers b2n] in EE.
      assert (Ej' : nth_error (upd i Gone (vars s)) j = Some (Ref o)).
      { rewrite nth_upd. destruct (Nat.eqb_spec i j); [congruence|exact Ej]. }
      pose proof (cnt_pos o j _ Ej'). lia. }
    rewrite Er. cbn [bind]. rewrite Ea. cbn [bind].
    assert (HI' : Inv (mks l2 (upd i vj (vars s)))).
    { split; cbn [objs vars].
      - eapply good_ext; [|exact G2]. intros p _. cbn beta. pose proof (cnt_upd p i vi vj (vars s) Ei) as E.
        assert ((b2n (refers p vi) <= cnt_of p (vars s))%nat).
        { destruct vi as [| |o]; cbn [refers b2n]; try lia. destruct (Nat.eqb_spec o p) as [->|]; cbn [b2n]; [|lia]. apply (cnt_pos p i _ Ei). }
        lia.
      - intros k o H. cbn [objs vars] in *. rewrite L2, L1. rewrite nth_upd, Ei in H. destruct (Nat.eqb i k).
        + injection H as ->. apply (C j o Ej).
        + apply (C k o H). }
    destruct vi as [| |oi]; [congruence| |]; (destruct vj as [| |oj]; [congruence| |]); eexists; split; try reflexivity; exact HI'.
  - destruct HW as (v & E & HG). rewrite E.
    destruct (release_var_good v (objs s) _ G) as (l' & Er & L & G').
    { intros o ->. apply (closed_var s i o HI E). }
    rewrite Er. cbn [bind].
    assert (HI' : Inv (mks l' (upd i Gone (vars s)))).
    { split; cbn [objs vars].
      - eapply good_ext; [|exact G']. intros p _. cbn beta. pose proof (cnt_upd p i v Gone (vars s) E) as EE. cbn [refers b2n] in EE. lia.
      - intros k o H. cbn [objs vars] in *. rewrite L. rewrite nth_upd, E in H. destruct (Nat.eqb i k); [discriminate|]. apply (C k o H). }
    destruct v as [| |o]; [congruence| |]; eexists; split; try reflexivity; exact HI'.
Qed.

Lemma start_inv : Inv start.
Proof. split; [intros [|o] b H; discriminate|intros [|i] o H; discriminate]. Qed.

Lemma illegal_step s o : Inv s -> ~ wf_op s o -> do_op s o = Illegal.
Proof.
  intros HI HN. destruct o as [| |i|i|i j|i]; cbn [do_op wf_op] in *; try (exfalso; apply HN; exact I).
  - destruct (nth_error (vars s) i) as [[| |o]|] eqn:E; auto; exfalso; apply HN; eexists; split; eauto; discriminate.
  - destruct (nth_error (vars s) i) as [[| |o]|] eqn:E; auto. exfalso. auto.
  - destruct (nth_error (vars s) i) as [[| |oi]|] eqn:Ei; auto; destruct (nth_error (vars s) j) as [[| |oj]|] eqn:Ej; auto;
    exfalso; apply HN; split; eexists; split; eauto; discriminate.
  - destruct (nth_error (vars s) i) as [[| |o]|] eqn:E; auto; exfalso; apply HN; eexists; split; eauto; discriminate.
Qed.

Lemma wf_dec s o : wf_op s o \/ ~ wf_op s o.
Proof.
  assert (D : forall i, (exists v, nth_error (vars s) i = Some v /\ v <> Gone) \/ ~ (exists v, nth_error (vars s) i = Some v /\ v <> Gone)).
  { intros i. destruct (nth_error (vars s) i) as [[| |o']|] eqn:E.
    - right. intros (v & [= <-] & H). congruence.
    - left. eexists. split; eauto. discriminate.
    - left. eexists. split; eauto. discriminate.
    - right. intros (v & H & _). discriminate. }
  destruct o as [| |i|i|i j|i]; cbn; auto.
  - destruct (nth_error (vars s) i) as [[| |o']|]; auto; right; intros; discriminate.
  - destruct (D i), (D j); tauto.
Qed.

Lemma run_inv l : forall s, Inv s -> forallb (fun o => negb (self_assign o)) l = true ->
  run s l = Illegal \/ exists s', run s l = OK s' /\ Inv s'.
Proof.
  induction l as [|o l IH]; intros s HI HF; cbn [run]; [right; eauto|].
  cbn [forallb] in HF. apply andb_prop in HF. destruct HF as [H1 H2]. apply negb_true_iff in H1.
  destruct (wf_dec s o) as [HW|HW].
  - destruct (step_ok s o HI HW H1) as (s' & -> & HI'). cbn [bind]. apply IH; auto.
  - left. rewrite (illegal_step s o HI HW). reflexivity.
Qed.

(** Self assignment. *)
Lemma self_assign_exact s i o : Inv s -> nth_error (vars s) i = Some (Ref o) ->
  do_op s (Assign i i) = (if Nat.eqb (owners s o) 1 then UseAfterFree else OK s) \/
  exists s', do_op s (Assign i i) = OK s' /\ Nat.eqb (owners s o) 1 = false /\ Inv s' /\ vars s' = vars s.
Proof.
  intros HI E. pose proof HI as [G C]. cbn [do_op]. rewrite E. cbn [release_var addRef_var].
  destruct (closed_var s i o HI E) as [A B].
  unfold owners. fold (cnt_of o (vars s)).
  assert (Hupd : upd i (Ref o) (vars s) = vars s).
  { clear - E. revert i E. induction (vars s) as [|v l IH]; intros [|i] E; cbn in *; try discriminate; [congruence|]. f_equal. auto. }
  destruct (release_good o (objs s) _ G A B) as (l1 & E1 & L1 & G1). rewrite E1. cbn [bind].
  destruct (Nat.eqb_spec (cnt_of o (vars s)) 1) as [H1|H1].
  - left. unfold addRef. destruct (nth_error l1 o) as [b|] eqn:Eb; [|apply nth_error_None in Eb; lia].
    destruct (G1 o b Eb) as [_ Hd]. rewrite Nat.eqb_refl, H1 in Hd. cbn in Hd. rewrite Hd. reflexivity.
  - right. destruct (addRef_good o l1 _ G1) as (l2 & E2 & L2 & G2); [lia|rewrite Nat.eqb_refl; lia|].
    rewrite E2. cbn [bind]. eexists. split; [reflexivity|]. split; [auto|]. split; [|exact Hupd].
    rewrite Hupd. split; cbn [objs vars].
    + eapply good_ext; [|exact G2]. intros p _. cbn beta. destruct (Nat.eqb_spec p o) as [->|]; lia.
    + intros k p H. cbn [objs vars] in *. rewrite L2, L1. apply (C k p H).
Qed.
