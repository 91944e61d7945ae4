From Verif Require Import Util Str_model StrAlias_model.
From Verif Require Import CBuffer_model CBuffer_proofs.
From Coq Require Import Lia.
Local Open Scope Z_scope.

Definition good (b : cbuf) (t : list Z) : Prop :=
  nonul t /\ current b = length t /\ (0 < origin b)%nat /\ exists k, mem b = t ++ repeat 0 (S k).

Lemma cstr_app t r : nonul t -> cstr (t ++ 0 :: r) = t.
Proof. induction 1 as [|x t Hx _ IH]; cbn; [reflexivity|]. destruct (Z.eqb_spec x 0); [contradiction|]. rewrite IH. reflexivity. Qed.
Lemma good_read b t : good b t -> read_buf b = Some t.
Proof.
  intros (Hn & _ & _ & k & Hm). unfold read_buf. rewrite Hm. cbn [repeat]. rewrite existsb_app. cbn [existsb]. rewrite Z.eqb_refl, Bool.orb_true_r.
  rewrite cstr_app by exact Hn. reflexivity.
Qed.
Lemma good_create n : good (create (S n)) [].
Proof. repeat split; cbn; try lia; [constructor|]. exists n. reflexivity. Qed.
Lemma good_wf b t : good b t -> WF b.
Proof. intros (_ & H & O & k & Hm). unfold WF. rewrite Hm, H, app_length. lia. Qed.
Lemma good_enlarge n b t : good b t -> good (enlarge n b) t.
Proof.
  intros (Hn & Hc & Ho & k & Hm). unfold enlarge, good. cbn [mem current origin]. repeat split; auto.
  set (e := if (n <? origin b)%nat then origin b else n). rewrite Hm, Hc, firstn_app, firstn_all, Nat.sub_diag. cbn [firstn]. rewrite app_nil_r.
  exists (k + e)%nat. do 2 f_equal. rewrite app_length, repeat_length. lia.
Qed.
Lemma good_prepare f n : forall b b' t, good b t -> prepare f n b = Some b' -> good b' t.
Proof.
  induction f as [|f IH]; intros b b' t G; cbn [prepare]; [discriminate|].
  destruct (Nat.leb _ _); [apply IH, good_enlarge, G|]. intros [= <-]. exact G.
Qed.
Lemma skipn_repeat {A} (x : A) a n : skipn a (repeat x n) = repeat x (n - a).
Proof. revert n. induction a as [|a IH]; intros [|n]; cbn; auto. Qed.
Lemma good_add d b t : good b t -> nonul d -> exists b', add d b = OK b' /\ good b' (t ++ d).
Proof.
  intros G Hd. unfold add. destruct d as [|x d0]; [exists b; rewrite app_nil_r; auto|]. set (d := x :: d0) in *.
  destruct (prepare_ok (length d) b (good_wf _ _ G)) as (b1 & E & _ & _ & F & _). rewrite E.
  pose proof (good_prepare _ _ _ _ _ G E) as (Hn & Hc & Ho & k & Hm).
  unfold blit. rewrite Hm, Hc in *. rewrite app_length, repeat_length in *.
  destruct (Nat.leb_spec (length t + length d) (length t + S k)); [|lia].
  eexists. split; [reflexivity|]. split; [apply Forall_app; auto|]. cbn [current origin mem].
  split; [rewrite app_length; reflexivity|]. split; [exact Ho|].
  exists (k - length d)%nat. rewrite firstn_app, firstn_all, Nat.sub_diag. cbn [firstn]. rewrite app_nil_r, <- app_assoc. do 2 f_equal.
  rewrite skipn_app, skipn_all2 by lia. cbn [app]. rewrite skipn_repeat. f_equal. lia.
Qed.

Lemma set_nth_length {A} n (x : A) l : length (set_nth n x l) = length l.
Proof. revert n. induction l; intros [|n]; cbn; auto. Qed.
Lemma set_nth_same {A} n (x : A) l : (n < length l)%nat -> nth_error (set_nth n x l) n = Some x.
Proof. revert n. induction l; intros [|n]; cbn; intros; try lia; auto. apply IHl. lia. Qed.
Lemma set_nth_other {A} n m (x : A) l : n <> m -> nth_error (set_nth n x l) m = nth_error l m.
Proof. revert n m. induction l; intros [|n] [|m]; cbn; intros; try congruence; auto. Qed.
Lemma upd_same {A} (f : var -> A) v x : upd f v x v = x.
Proof. unfold upd. rewrite Nat.eqb_refl. reflexivity. Qed.
Lemma upd_other {A} (f : var -> A) v x u : u <> v -> upd f v x u = f u.
Proof. intros H. unfold upd. destruct (Nat.eqb_spec u v); congruence. Qed.

Record Inv (s : sstate) (D : list var) (g : sharing) (e : values) : Prop := {
  inv_decl : forall v, In v D -> exists i b t, handle s v = Some i /\ nth_error (heap s) i = Some b /\ good b t /\ e v = Some t;
  inv_undecl : forall v, ~ In v D -> handle s v = None /\ e v = None;
  inv_share : forall u v, g u v = true <-> (u = v \/ (handle s u <> None /\ handle s u = handle s v)) }.

Lemma inv_read s D g e : Inv s D g e -> forall v, read_var s v = e v.
Proof.
  intros [A B _] v. unfold read_var. destruct (in_dec Nat.eq_dec v D) as [H|H].
  - destruct (A v H) as (i & b & t & -> & -> & G & ->). apply good_read, G.
  - destruct (B v H) as [-> ->]. reflexivity.
Qed.
Lemma inv_lt s D g e : Inv s D g e -> forall v i, handle s v = Some i -> (i < length (heap s))%nat.
Proof.
  intros [A B _] v i H. destruct (in_dec Nat.eq_dec v D) as [H1|H1].
  - destruct (A v H1) as (j & b & t & E & N & _). rewrite E in H. injection H as <-. apply nth_error_Some. congruence.
  - destruct (B v H1). congruence.
Qed.

Definition fresh_share (v : var) (g : sharing) : sharing := fun a b => if Nat.eqb a v || Nat.eqb b v then Nat.eqb a b else g a b.
Lemma inv_alloc s D g e v b t : Inv s D g e -> good b t ->
  Inv (alloc v b s) (v :: D) (fresh_share v g) (upd e v (Some t)).
Proof.
  intros I G. constructor; unfold alloc; cbn [handle heap].
  - intros u Hu. destruct (Nat.eq_dec u v) as [->|N].
    + rewrite !upd_same. exists (length (heap s)), b, t. rewrite nth_error_app2, Nat.sub_diag by lia. auto.
    + rewrite !upd_other by exact N. destruct Hu as [->|Hu]; [congruence|].
      destruct (inv_decl _ _ _ _ I u Hu) as (i & b' & t' & A & B & C & E). exists i, b', t'.
      rewrite nth_error_app1 by (apply (inv_lt _ _ _ _ I u); auto). auto.
  - intros u Hu. assert (N : u <> v) by (intros ->; apply Hu; left; auto). rewrite !upd_other by exact N.
    apply (inv_undecl _ _ _ _ I). intros H; apply Hu; right; auto.
  - intros a c. unfold fresh_share.
    assert (K : forall u, handle s u <> Some (length (heap s))).
    { intros u E. apply (inv_lt _ _ _ _ I) in E. lia. }
    destruct (Nat.eqb_spec a v) as [->|Na]; cbn [orb].
    + rewrite upd_same. rewrite Nat.eqb_eq. destruct (Nat.eq_dec c v) as [->|Nc]; [tauto|]. rewrite upd_other by exact Nc.
      specialize (K c). intuition congruence.
    + rewrite upd_other by exact Na. destruct (Nat.eqb_spec c v) as [->|Nc].
      * rewrite upd_same, Nat.eqb_eq. specialize (K a). intuition congruence.
      * rewrite upd_other by exact Nc. apply (inv_share _ _ _ _ I).
Qed.

Lemma append_inv s D g e v d : Inv s D g e -> In v D -> nonul d ->
  exists s' t, append v d s = SOk s' /\ e v = Some t /\ handle s' = handle s
  /\ Inv s' D g (fun u => if g u v then Some (t ++ d) else e u).
Proof.
  intros I Hv Hd. unfold append. destruct (inv_decl _ _ _ _ I v Hv) as (i & b & t & A & B & C & E). rewrite A, B.
  destruct (good_add d b t C Hd) as (b' & -> & G). exists (mkss (handle s) (set_nth i b' (heap s))), t.
  split; [reflexivity|]. split; [exact E|]. split; [reflexivity|].
  assert (Li := inv_lt _ _ _ _ I _ _ A).
  constructor; cbn [handle heap].
  - intros u Hu. destruct (inv_decl _ _ _ _ I u Hu) as (j & c & w & A' & B' & C' & E').
    destruct (g u v) eqn:Eg.
    + apply (inv_share _ _ _ _ I) in Eg. exists i, b', (t ++ d). rewrite set_nth_same by exact Li.
      destruct Eg as [->|[_ Eg]]; [auto|rewrite Eg; auto].
    + assert (j <> i). { intros ->. assert (g u v = true); [|congruence]. apply (inv_share _ _ _ _ I). right. split; congruence. }
      exists j, c, w. rewrite set_nth_other by congruence. auto.
  - intros u Hu. destruct (inv_undecl _ _ _ _ I u Hu) as [A' B']. split; [exact A'|].
    destruct (g u v) eqn:Eg; [|exact B']. apply (inv_share _ _ _ _ I) in Eg. destruct Eg as [->|[Q _]]; [contradiction|congruence].
  - apply (inv_share _ _ _ _ I).
Qed.

Lemma inv_ext s D D' g g' e e' : Inv s D g e -> (forall v, In v D <-> In v D') -> (forall u v, g u v = g' u v) -> (forall v, e v = e' v) -> Inv s D' g' e'.
Proof.
  intros [A B C] HD Hg He. constructor.
  - intros v Hv. rewrite <- He. apply A, HD, Hv.
  - intros v Hv. rewrite <- He. apply B. rewrite HD. exact Hv.
  - intros u v. rewrite <- Hg. apply C.
Qed.

Lemma fresh_row v g u : fresh_share v g u v = Nat.eqb u v.
Proof. unfold fresh_share. rewrite (Nat.eqb_refl v), Bool.orb_true_r. reflexivity. Qed.

Lemma assign_inv s D g e v t : Inv s D g e -> nonul t ->
  exists s', assign v t s = SOk s' /\ Inv s' (v :: D) (fresh_share v g) (upd e v (Some t)).
Proof.
  intros I Ht. pose proof (inv_alloc s D g e v _ _ I (good_create (length t))) as I1.
  destruct (append_inv _ _ _ _ v t I1 (or_introl eq_refl) Ht) as (s' & t0 & E & E1 & _ & I2).
  exists s'. unfold assign. split; [exact E|]. rewrite upd_same in E1. injection E1 as <-.
  eapply inv_ext; [exact I2|tauto|auto|]. intros u. cbn beta. rewrite fresh_row. cbn [app].
  destruct (Nat.eqb_spec u v) as [->|N]; [rewrite upd_same|rewrite !upd_other by exact N]; reflexivity.
Qed.

Definition declare (o : sop) (D : list var) : list var :=
  match o with Default v | Assign v _ | Copy v _ | Clone v _ | Plus v _ _ => v :: D | _ => D end.
Definition legal1 (excl : bool) vars o D (g : sharing) : Prop :=
  match o with
     | Default v => In v vars
     | Assign v t => In v vars /\ nonul t
     | Copy v w | Clone v w => In v vars /\ In w D
     | Append v t => In v D /\ nonul t /\ (excl = true -> forall u, In u vars -> u <> v -> g u v = false)
     | AppendVar v w => In v D /\ In w D /\ v <> w /\ g v w = false
         /\ (excl = true -> forall u, In u vars -> u <> v -> g u v = false)
     | Plus v w t => In v vars /\ In w D /\ nonul t
     end.

Lemma step_inv excl vars o s D g e : Inv s D g e -> legal1 excl vars o D g ->
  exists s', sstep o s = SOk s' /\ Inv s' (declare o D) (fst (rstep o (g, e))) (snd (rstep o (g, e))).
Proof.
  intros I L. destruct o as [v|v t|v w|v t|v w|v w|v w t]; cbn [sstep declare rstep fst snd legal1 share_step vstep] in *.
  - eexists. split; [reflexivity|]. apply (inv_alloc s D g e v _ _ I (good_create 1023)).
  - apply assign_inv; tauto.
  - eexists. split; [reflexivity|]. destruct L as [_ Hw].
    destruct (inv_decl _ _ _ _ I w Hw) as (i & b & t & A & B & C & E).
    constructor; cbn [handle heap].
    + intros u Hu. destruct (Nat.eq_dec u v) as [->|N]; [rewrite !upd_same; exists i, b, t; auto|].
      rewrite !upd_other by exact N. destruct Hu as [->|Hu]; [congruence|]. apply (inv_decl _ _ _ _ I u Hu).
    + intros u Hu. assert (N : u <> v) by (intros ->; apply Hu; left; auto). rewrite !upd_other by exact N.
      apply (inv_undecl _ _ _ _ I). intros H; apply Hu; right; auto.
    + intros a c. rewrite (inv_share _ _ _ _ I). unfold upd.
      destruct (Nat.eqb_spec a v) as [->|Na], (Nat.eqb_spec c v) as [->|Nc]; intuition (try congruence); subst; right; split; congruence.
  - destruct L as (A & B & _). destruct (append_inv s D g e v t I A B) as (s' & t0 & E & Et & _ & I').
    exists s'. split; [exact E|]. rewrite Et. exact I'.
  - destruct L as (A & B & N & Gf & _).
    destruct (inv_decl _ _ _ _ I v A) as (i & b & t & A1 & A2 & A3 & A4).
    destruct (inv_decl _ _ _ _ I w B) as (j & c & r & B1 & B2 & B3 & B4).
    rewrite A1, B1, B2, (good_read _ _ B3).
    destruct (Nat.eqb_spec i j) as [->|Nij].
    { exfalso. assert (g v w = true); [|congruence]. apply (inv_share _ _ _ _ I). right. split; congruence. }
    cbn [andb]. destruct (append_inv s D g e v r I A (proj1 B3)) as (s' & t0 & E & Et & _ & I').
    exists s'. split; [exact E|]. rewrite Et, B4. exact I'.
  - destruct L as [_ Hw]. rewrite (inv_read _ _ _ _ I). destruct (inv_decl _ _ _ _ I w Hw) as (i & b & t & A & B & C & E).
    rewrite A, E. apply assign_inv; [exact I|apply C].
  - destruct L as (_ & Hw & Ht). rewrite (inv_read _ _ _ _ I). destruct (inv_decl _ _ _ _ I w Hw) as (i & b & u & A & B & C & E).
    rewrite A, E. destruct (assign_inv s D g e v u I (proj1 C)) as (s' & -> & I').
    destruct (append_inv _ _ _ _ v t I' (or_introl eq_refl) Ht) as (s2 & t0 & E2 & Et & _ & I2).
    exists s2. split; [exact E2|]. rewrite upd_same in Et. injection Et as <-.
    eapply inv_ext; [exact I2|tauto|auto|]. intros x. cbn beta. rewrite fresh_row.
    destruct (Nat.eqb_spec x v) as [->|N]; [rewrite upd_same|rewrite !upd_other by exact N]; reflexivity.
Qed.

Lemma run_inv excl vars l : forall s D g e, Inv s D g e -> legal_s excl vars l D g ->
  exists s' D' , srun l s = SOk s' /\ Inv s' D' (fst (fold_left (fun ge o => rstep o ge) l (g, e))) (snd (fold_left (fun ge o => rstep o ge) l (g, e))).
Proof.
  induction l as [|o l IH]; intros s D g e I L; cbn [srun fold_left]; [eauto|].
  cbn [legal_s] in L. destruct L as [L1 L2].
  destruct (step_inv excl vars o s D g e I L1) as (s1 & -> & I1).
  destruct (rstep o (g, e)) as [g1 e1] eqn:E. cbn [fst snd] in I1.
  assert (g1 = share_step o g) by (cbn in E; congruence). subst g1.
  apply (IH s1 (declare o D) _ _ I1 L2).
Qed.
Lemma inv_empty : Inv empty_state [] Nat.eqb (fun _ => None).
Proof.
  constructor; cbn; [tauto|auto|]. intros u v. rewrite Nat.eqb_eq. intuition congruence.
Qed.
Lemma reference_ok excl vars l : legal_history excl vars l ->
  exists s, srun l empty_state = SOk s /\ forall v, read_var s v = rrun l v.
Proof.
  intros H. destruct (run_inv excl vars l _ _ _ _ inv_empty H) as (s & D & E & I). exists s. split; [exact E|].
  intros v. rewrite (inv_read _ _ _ _ I). reflexivity.
Qed.

(** value semantics from exclusive appends *)
Lemma excl_agree vars l : forall s D g e e', Inv s D g e -> (forall v, In v D -> In v vars) -> (forall v, e v = e' v) -> legal_s true vars l D g ->
  forall v, snd (fold_left (fun ge o => rstep o ge) l (g, e)) v = fold_left (fun e o => vstep o e) l e' v.
Proof.
  induction l as [|o l IH]; intros s D g e e' I HD He L v; cbn [fold_left snd]; [apply He|].
  cbn [legal_s] in L. destruct L as [L1 L2].
  destruct (step_inv true vars o s D g e I L1) as (s1 & _ & I1).
  destruct (rstep o (g, e)) as [g1 e1] eqn:E. cbn [fst snd] in I1.
  assert (g1 = share_step o g) by (cbn in E; congruence). subst g1.
  apply (IH s1 (declare o D) _ _ _ I1); [| |exact L2].
  - intros u Hu. destruct o; cbn [declare] in Hu; cbn in L1; try (destruct Hu as [<-|Hu]; [tauto|auto]); auto.
  - intros u. assert (Ee : e1 = snd (rstep o (g, e))) by (rewrite E; reflexivity). rewrite Ee. cbn [rstep snd].
    assert (HE : forall w d, In w D -> (forall u, In u vars -> u <> w -> g u w = false) ->
      (if g u w then Some ((match e w with Some t => t | None => [] end) ++ d) else e u) = upd e' w (Some ((match e' w with Some t => t | None => [] end) ++ d)) u).
    { intros w d Hw Hx. rewrite (He w). destruct (Nat.eq_dec u w) as [->|N].
      - rewrite upd_same. replace (g w w) with true by (symmetry; apply (inv_share _ _ _ _ I); auto). reflexivity.
      - rewrite upd_other by exact N. rewrite <- (He u). destruct (in_dec Nat.eq_dec u D) as [Hu|Hu]; [rewrite (Hx u (HD u Hu) N); reflexivity|].
        destruct (inv_undecl _ _ _ _ I u Hu) as [A B]. destruct (g u w) eqn:Eg; [|reflexivity].
        apply (inv_share _ _ _ _ I) in Eg. destruct Eg as [->|[Q _]]; congruence. }
    destruct o as [w|w t|w x|w t|w x|w x|w x t]; cbn [vstep legal1] in *; try (unfold upd; rewrite ?He; destruct (Nat.eqb u w); auto; fail).
    + apply HE; [tauto|]. apply L1; reflexivity.
    + rewrite <- (He x). apply HE; [tauto|]. apply L1; reflexivity.
Qed.
Lemma value_ok vars l : legal_history true vars l ->
  exists s, srun l empty_state = SOk s /\ forall v, read_var s v = vrun l v.
Proof.
  intros H. destruct (reference_ok true vars l H) as (s & E & R). exists s. split; [exact E|]. intros v. rewrite R.
  apply (excl_agree vars l _ _ _ _ _ inv_empty); [contradiction|auto|exact H].
Qed.
