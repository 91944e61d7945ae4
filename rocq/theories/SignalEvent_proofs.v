From Coq Require Import List Bool Arith Lia.
From Verif Require Import SignalEvent_model.
Import ListNotations.

Lemma In_upd {A} i (x y : A) l : In y (upd i x l) -> y = x \/ In y l.
Proof.
  revert i; induction l as [|z l IH]; intros [|i]; cbn; auto.
  - intros [->|H]; auto.
  - intros [->|H]; auto. destruct (IH i H); auto.
Qed.
Lemma In_upd_ne {A} i (x y z : A) l : In y l -> nth_error l i = Some z -> y <> z -> In y (upd i x l).
Proof.
  revert i; induction l as [|w l IH]; intros [|i]; cbn; auto.
  - intros [->|H] [= ->] Hne; auto; congruence.
  - intros [->|H] E Hne; auto.
Qed.
Lemma In_upd_new {A} i (x z : A) l : nth_error l i = Some z -> In x (upd i x l).
Proof. revert i; induction l as [|w l IH]; intros [|i]; cbn; auto; try discriminate; eauto. Qed.
Lemma nth_In {A} i (l : list A) x : nth_error l i = Some x -> In x l.
Proof. apply nth_error_In. Qed.

(** Safety. *)
Definition Safe (s : state) : Prop :=
  (In WWoken (ws s) \/ In WUnlock (ws s) \/ In WReturned (ws s) \/ In SSignal (ss s) -> signed s = true).

Lemma Safe_step s l s' : Safe s -> step s l s' -> Safe s'.
Proof.
  unfold Safe. intros HS H. inversion H; subst; cbn [signed locked ws ss]; intros Hd; auto.
  all: repeat match goal with
    | H : nth_error _ _ = Some _ |- _ => apply nth_In in H
    | H : _ \/ _ |- _ => destruct H
    | H : In _ (upd _ _ _) |- _ => apply In_upd in H
    end; try discriminate; auto 10.
  all: destruct (signed s); auto; try discriminate.
Qed.
Lemma exec_inv (P : state -> Prop) : (forall s l s', P s -> step s l s' -> P s') ->
  forall s t s', exec s t s' -> P s -> P s'.
Proof. intros HP s t s' H. induction H; eauto. Qed.
Lemma In_repeat {A} (x y : A) n : In x (repeat y n) -> x = y.
Proof. apply repeat_spec. Qed.

Lemma no_early_return n m t s : exec (init n m) t s -> In WReturned (ws s) -> signed s = true.
Proof.
  intros H Hr. assert (Safe s) as HS.
  { apply (exec_inv Safe Safe_step _ _ _ H). unfold Safe, init. cbn.
    intros Hd. repeat destruct Hd as [Hd|Hd]; apply In_repeat in Hd; discriminate. }
  apply HS. auto.
Qed.

(** Already set. *)
Definition SetInv (s : state) : Prop := signed s = true /\ (forall w, In w (ws s) -> w = WTest \/ w = WReturned).
Lemma SetInv_step s l s' : SetInv s -> step s l s' -> SetInv s'.
Proof.
  unfold SetInv. intros [HA HB] H. inversion H; subst; cbn [signed locked ws ss] in *;
  try (match goal with H : nth_error (ws s) _ = Some _ |- _ => apply nth_In in H; apply HB in H; destruct H; discriminate end).
  all: try (split; [auto|exact HB]).
  split; [auto|]. intros w Hw. apply In_upd in Hw. rewrite HA in Hw. destruct Hw; auto.
Qed.
Lemma set_before n m t s : exec (init_set n m) t s -> stuck s -> Forall (fun w => w = WReturned) (ws s).
Proof.
  intros H Hst. assert (HI : SetInv s).
  { apply (exec_inv SetInv SetInv_step _ _ _ H). split; [reflexivity|]. cbn. intros w Hw. apply In_repeat in Hw. auto. }
  apply Forall_forall. intros w Hw. destruct HI as [HA HB]. destruct (HB w Hw) as [->|]; auto.
  exfalso. destruct (In_nth_error _ _ Hw) as [i Hi]. apply (Hst _ _ (step_test s i Hi)).
Qed.
Lemma exec_no_sleep n m t s : exec (init_set n m) t s -> ~ In WSleep (ws s).
Proof.
  intros H. assert (HI : SetInv s).
  { apply (exec_inv SetInv SetInv_step _ _ _ H). split; [reflexivity|]. cbn. intros w Hw. apply In_repeat in Hw. auto. }
  intros Hs. destruct HI as [_ HB]. destruct (HB _ Hs); discriminate.
Qed.

(** One sleeper first. *)
Definition SleepInv (s : state) : Prop :=
  (ws s = [WSleep] /\ locked s = false /\
    (In SSignal (ss s) \/ (signed s = false /\ ss s <> [] /\ forall p, In p (ss s) -> p = STest \/ p = SStore)))
  \/ (ws s = [WWoken] /\ locked s = false) \/ (ws s = [WUnlock]) \/ ws s = [WReturned].

Lemma upd_nil {A} i (x : A) l : l <> [] -> upd i x l <> [].
Proof. destruct l, i; cbn; congruence. Qed.

Lemma SleepInv_step s l s' : SleepInv s -> step s l s' -> SleepInv s'.
Proof.
  intros HI H. unfold SleepInv in *.
  inversion H; subst; cbn [signed locked ws ss] in *.
  1-5: destruct HI as [(HA & HL & HB)|[(HA & HL)|[HA|HA]]]; rewrite HA in *; destruct i; cbn in *; try discriminate;
    try (destruct i; discriminate); auto 10.
  - (* stest *) destruct HI as [(HA & HL & HB)|HI]; [|right; exact HI]. left. split; [auto|]. split; [auto|].
    destruct HB as [HB|(HS & HN & HB)].
    + left. eapply In_upd_ne; eauto. discriminate.
    + right. split; [auto|]. split; [apply upd_nil; auto|]. intros p Hp. apply In_upd in Hp. rewrite HS in Hp. destruct Hp; auto.
  - (* store *) destruct HI as [(HA & HL & HB)|HI]; [|right; exact HI]. left. split; [auto|]. split; [auto|]. left. eapply In_upd_new; eauto.
  - (* signal *) destruct HI as [(HA & HL & HB)|HI].
    + rewrite HA in *. destruct i; [|destruct i; discriminate]. cbn. right. left. auto.
    + exfalso. match goal with H : nth_error (ws s) _ = Some WSleep |- _ => apply nth_In in H; destruct HI as [[HA _]|[HA|HA]]; rewrite HA in H; destruct H as [H|[]]; discriminate end.
  - destruct HI as [(HA & HL & HB)|HI]; [|right; exact HI]. exfalso.
    match goal with H : ~ In _ _ |- _ => apply H; rewrite HA; left; reflexivity end.
Qed.

Lemma asleep_first m t s : (0 < m)%nat -> exec (init_asleep m) t s -> stuck s -> ws s = [WReturned].
Proof.
  intros Hm H Hst. assert (HI : SleepInv s).
  { apply (exec_inv SleepInv SleepInv_step _ _ _ H). left. cbn. split; [auto|]. split; [auto|]. right.
    split; [auto|]. split; [destruct m; [lia|discriminate]|]. intros p Hp. apply In_repeat in Hp. auto. }
  destruct HI as [(HA & HL & HB)|[[HA HL]|[HA|HA]]]; auto; exfalso.
  - destruct HB as [HB|(HS & HN & HB)].
    + destruct (In_nth_error _ _ HB) as [j Hj]. apply (Hst _ _ (step_signal s j 0 Hj ltac:(rewrite HA; reflexivity))).
    + destruct (ss s) as [|p l] eqn:E; [congruence|]. destruct (HB p (or_introl eq_refl)); subst p.
      * apply (Hst _ _ (step_stest s 0 ltac:(rewrite E; reflexivity))).
      * apply (Hst _ _ (step_store s 0 ltac:(rewrite E; reflexivity))).
  - apply (Hst _ _ (step_relock s 0 ltac:(rewrite HA; reflexivity) HL)).
  - apply (Hst _ _ (step_unlock s 0 ltac:(rewrite HA; reflexivity))).
Qed.

(** One waiter, one signaller: successor function, for exhaustive exploration. *)
Definition next1 (s : state) : list (label * state) :=
  match ws s, ss s with
  | [w], [p] =>
    (match w with
     | WTest => [(LTest 0 (signed s), mk (signed s) (locked s) [if signed s then WReturned else WLock] [p])]
     | WLock => if locked s then [] else [(LLock 0, mk (signed s) true [WEnter] [p])]
     | WEnter => [(LEnter 0, mk (signed s) false [WSleep] [p])]
     | WWoken => if locked s then [] else [(LRelock 0, mk (signed s) true [WUnlock] [p])]
     | WUnlock => [(LUnlock 0, mk (signed s) false [WReturned] [p])]
     | _ => [] end) ++
    (match p with
     | STest => [(LSTest 0, mk (signed s) (locked s) [w] [if signed s then SReturned else SStore])]
     | SStore => [(LStore 0, mk true (locked s) [w] [SSignal])]
     | SSignal => [(LSignal 0, mk (signed s) (locked s) [match w with WSleep => WWoken | _ => w end] [SReturned])]
     | SReturned => [] end)
  | _, _ => []
  end.

Definition one_one (s : state) := exists w p, ws s = [w] /\ ss s = [p].

Lemma next1_complete s l s' : one_one s -> step s l s' -> In (l, s') (next1 s) /\ one_one s'.
Proof.
  intros (w & p & HW & HP) H. unfold next1, one_one.
  inversion H; subst; rewrite HW, HP in *; cbn [ws ss signed locked] in *;
  try (destruct i; [|destruct i; discriminate]); try (destruct j; [|destruct j; discriminate]); cbn in *;
  repeat match goal with H : Some _ = Some _ |- _ => injection H as ->; subst end;
  repeat match goal with H : locked _ = false |- _ => rewrite H end;
  (split; [|eauto]); try (apply in_or_app); cbn; auto.
  - destruct w; cbn in *; auto; exfalso; auto.
Qed.
Lemma next1_sound s l s' : In (l, s') (next1 s) -> step s l s'.
Proof.
  unfold next1. destruct s as [sg lk W P]. cbn [ws ss signed locked].
  destruct W as [|w [|]]; try contradiction. destruct P as [|p [|]]; try contradiction.
  intros H. apply in_app_or in H. destruct H as [H|H].
  - destruct w; cbn in H; try destruct lk; cbn in H; repeat destruct H as [H|H]; try contradiction; injection H as <- <-.
    all: match goal with |- step ?s _ _ => first [ exact (step_test s 0 eq_refl) | exact (step_lock s 0 eq_refl eq_refl)
      | exact (step_enter s 0 eq_refl) | exact (step_relock s 0 eq_refl eq_refl) | exact (step_unlock s 0 eq_refl) ] end.
  - destruct p; cbn in H; repeat destruct H as [H|H]; try contradiction; injection H as <- <-.
    all: match goal with |- step ?s _ _ => first [ exact (step_stest s 0 eq_refl) | exact (step_store s 0 eq_refl) | idtac ] end.
    destruct w; match goal with |- step ?s _ _ => first [ exact (step_signal s 0 0 eq_refl eq_refl)
      | refine (step_signal_none s 0 eq_refl _); cbn; intros [X|[]]; discriminate ] end.
Qed.

(** Complete runs. *)
Fixpoint runs (fuel : nat) (s : state) : option (list (list label * state)) :=
  match fuel with
  | O => None
  | S f =>
    match next1 s with
    | [] => Some [([], s)]
    | l => fold_right (fun ls acc =>
        match acc, runs f (snd ls) with
        | Some a, Some r => Some (map (fun x => (fst ls :: fst x, snd x)) r ++ a)
        | _, _ => None end) (Some []) l
    end
  end.

Lemma runs_complete fuel : forall s R t s', runs fuel s = Some R -> one_one s -> exec s t s' -> stuck s' -> In (t, s') R.
Proof.
  induction fuel as [|f IH]; intros s R t s' HR H1 HE Hst; [discriminate|].
  cbn [runs] in HR. inversion HE as [|? l s1 t1 ? Hs Ht]; subst.
  - destruct (next1 s') as [|[l2 s2] r] eqn:E; [injection HR as <-; left; reflexivity|].
    exfalso. apply (Hst l2 s2). apply next1_sound. rewrite E. left. reflexivity.
  - destruct (next1_complete s l s1 H1 Hs) as [Hin H1'].
    destruct (next1 s) as [|x r] eqn:E; [contradiction|].
    remember (x :: r) as L. clear HeqL E. revert R HR. induction L as [|y L IHL]; intros R HR; [contradiction|].
    cbn [fold_right] in HR. destruct (fold_right _ _ L) as [a|] eqn:Ea; [|discriminate].
    destruct (runs f (snd y)) as [r'|] eqn:Er; [|discriminate]. injection HR as <-.
    apply in_or_app. destruct Hin as [->|Hin].
    + left. cbn [fst snd] in *. apply in_map_iff. exists (t1, s'). split; [reflexivity|]. eapply IH; eauto.
    + right. apply (IHL Hin). reflexivity.
Qed.

Definition label_eqb (a b : label) : bool :=
  match a, b with
  | LTest i x, LTest j y => Nat.eqb i j && Bool.eqb x y
  | LLock i, LLock j | LEnter i, LEnter j | LRelock i, LRelock j | LUnlock i, LUnlock j
  | LSTest i, LSTest j | LStore i, LStore j | LSignal i, LSignal j => Nat.eqb i j
  | _, _ => false
  end.
Lemma label_eqb_eq a b : label_eqb a b = true <-> a = b.
Proof.
  destruct a, b; cbn; try (split; [discriminate|congruence]);
  rewrite ?andb_true_iff, ?Nat.eqb_eq, ?Bool.eqb_true_iff; split; try congruence; try (intros [-> ->]; reflexivity); intros [= -> ->]; auto.
Qed.
Fixpoint after (x : label) (t : list label) : option (list label) :=
  match t with [] => None | y :: t' => if label_eqb x y then Some t' else after x t' end.
Lemma after_spec x t r : after x t = Some r -> exists a, t = a ++ x :: r.
Proof.
  induction t as [|y t IH]; cbn; [discriminate|]. destruct (label_eqb x y) eqn:E.
  - apply label_eqb_eq in E. subst y. intros [= ->]. exists []. reflexivity.
  - intros H. destruct (IH H) as [a ->]. exists (y :: a). reflexivity.
Qed.
Lemma after_In x a r : exists r', after x (a ++ x :: r) = Some r' /\ exists b, r' = b ++ r.
Proof.
  induction a as [|y a IH]; cbn.
  - replace (label_eqb x x) with true by (symmetry; apply label_eqb_eq; reflexivity). exists r. split; auto. exists []. reflexivity.
  - destruct (label_eqb x y) eqn:E.
    + exists (a ++ x :: r). split; auto. exists (a ++ [x]). rewrite <- app_assoc. reflexivity.
    + exact IH.
Qed.
Definition lostb (t : list label) : bool :=
  match after (LTest 0 false) t with
  | None => false
  | Some t1 => match after (LSignal 0) t1 with
    | None => false
    | Some t2 => match after (LEnter 0) t2 with None => false | Some _ => true end end end.
Lemma lostb_spec t : lostb t = true <-> lost t.
Proof.
  unfold lostb, lost. split.
  - destruct (after (LTest 0 false) t) as [t1|] eqn:E1; [|discriminate].
    destruct (after (LSignal 0) t1) as [t2|] eqn:E2; [|discriminate].
    destruct (after (LEnter 0) t2) as [t3|] eqn:E3; [|discriminate]. intros _.
    apply after_spec in E1, E2, E3. destruct E1 as [a ->], E2 as [b ->], E3 as [c ->]. exists a, b, c, t3. reflexivity.
  - intros (a & b & c & d & ->).
    destruct (after_In (LTest 0 false) a (b ++ LSignal 0 :: c ++ LEnter 0 :: d)) as (r1 & -> & x & ->).
    rewrite app_assoc.
    destruct (after_In (LSignal 0) (x ++ b) (c ++ LEnter 0 :: d)) as (r2 & -> & y & ->).
    rewrite app_assoc.
    destruct (after_In (LEnter 0) (y ++ c) d) as (r3 & -> & _). reflexivity.
Qed.

Definition wpc_final (s : state) : option bool :=
  match ws s with [WReturned] => Some true | [WSleep] => Some false | _ => None end.

Lemma all_runs_ok : forall t s, exec (init 1 1) t s -> stuck s ->
  (ws s = [WReturned] /\ ~ lost t) \/ (ws s = [WSleep] /\ lost t).
Proof.
  intros t s HE Hst.
  assert (H : exists R, runs 12 (init 1 1) = Some R /\
    forallb (fun x => match wpc_final (snd x) with Some true => negb (lostb (fst x)) | Some false => lostb (fst x) | None => false end) R = true).
  { eexists. split; vm_compute; reflexivity. }
  destruct H as (R & HR & HB). rewrite forallb_forall in HB.
  assert (Hin : In (t, s) R). { eapply runs_complete; eauto. exists WTest, STest. split; reflexivity. }
  specialize (HB _ Hin). cbn [fst snd] in HB. unfold wpc_final in HB.
  destruct (ws s) as [|[] [|]]; try discriminate.
  - right. split; [auto|]. apply lostb_spec, HB.
  - left. split; [auto|]. intros HL. apply lostb_spec in HL. rewrite HL in HB. discriminate.
Qed.
