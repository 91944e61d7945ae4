(** Lemmas on what is published. *)
From Coq Require Import ZifyNat.
From Verif Require Import Util Publish_model.
Local Open Scope Z_scope.
Local Ltac Zify.zify_post_hook ::= Z.div_mod_to_equations.

(** * key frames *)
Lemma publish_limit : forall len tol stop ks prev lim, 0 <= tol <= len -> 0 <= lim - (len - tol) -> lim + tol < NO_TIME ->
  (forall k, In k ks -> fst k < stop /\ 0 <= snd k /\ snd k + len < NO_TIME) -> (match prev with None => True | Some p => forall k, In k ks -> p < fst k end) ->
  (forall a x b, ks = a ++ x :: b -> forall y, In y b -> fst x < fst y) ->
  chosen (len - tol) (skip_until lim ks) (publish_keys len tol stop prev (lim + tol) ks).
Proof.
  intros len tol stop ks. induction ks as [|(c & t) r IH]; intros prev lim T L B H P S; cbn [publish_keys skip_until]; [constructor|].
  destruct (H (c, t) (or_introl eq_refl)) as (H1 & H2 & H3). cbn [fst snd] in *.
  replace (c <? stop) with true by lia. replace (match prev with None => true | Some p => p <? c end) with true.
  2:{ destruct prev as [p|]; [|reflexivity]. pose proof (P (c, t) (or_introl eq_refl)). cbn in *. lia. }
  cbn [andb publish_composition]. replace (lim + tol =? NO_TIME) with false by lia. cbn [orb]. unfold NO_TIME in *.
  rewrite (Z.mod_small (lim + tol - tol)) by lia. replace (lim + tol - tol) with lim by lia.
  assert (S' : forall a x b, r = a ++ x :: b -> forall y, In y b -> fst x < fst y) by (intros a x b ->; apply (S ((c, t) :: a) x b); reflexivity).
  assert (P' : forall k, In k r -> c < fst k) by (intros k Hk; apply (S [] (c, t) r eq_refl k Hk)).
  assert (H' : forall k, In k r -> fst k < stop /\ 0 <= snd k /\ snd k + len < 2 ^ 64 - 1) by (intros k Hk; apply H; right; exact Hk).
  destruct (Z.leb_spec lim t).
  - cbn [app]. rewrite (Z.mod_small (t + len)) by lia. change (Seg c t) with (seg_of (c, t)). constructor. cbn [snd].
    replace (t + len) with (t + (len - tol) + tol) by lia. apply IH; try assumption; lia.
  - cbn [app]. apply IH; assumption.
Qed.
Lemma publish_video_ok : forall len tol stop ks, 0 <= tol <= len ->
  (forall k, In k ks -> fst k < stop /\ 0 <= snd k /\ snd k + len < NO_TIME) -> (forall a x b, ks = a ++ x :: b -> forall y, In y b -> fst x < fst y) ->
  chosen (len - tol) ks (publish_video len tol stop ks).
Proof.
  intros len tol stop [|(c & t) r] T H S; [constructor|]. unfold publish_video. cbn [publish_keys].
  destruct (H (c, t) (or_introl eq_refl)) as (H1 & H2 & H3). cbn [fst snd] in *. replace (c <? stop) with true by lia. cbn [andb publish_composition orb]. rewrite Z.eqb_refl. cbn [orb app].
  unfold NO_TIME in *. rewrite (Z.mod_small (t + len)) by lia. change (Seg c t) with (seg_of (c, t)). constructor. cbn [snd]. replace (t + len) with (t + (len - tol) + tol) by lia.
  apply publish_limit; try (unfold NO_TIME; lia).
  - intros k Hk. unfold NO_TIME. apply H. right; exact Hk.
  - intros k Hk. apply (S [] (c, t) r eq_refl k Hk).
  - intros a x b ->. apply (S ((c, t) :: a) x b). reflexivity.
Qed.
(** what [chosen] gives *)
Lemma skip_suffix : forall lim ks, exists a, ks = a ++ skip_until lim ks /\ (forall x, In x a -> snd x < lim) /\ match skip_until lim ks with [] => True | k :: _ => lim <= snd k end.
Proof.
  induction ks as [|k r IH]; cbn [skip_until]; [exists []; repeat split; intros x []|]. destruct (Z.leb_spec lim (snd k)).
  - exists []. split; [reflexivity|]. split; [intros x []|exact H].
  - destruct IH as (a & E & F & G). exists (k :: a). split; [cbn [app]; rewrite <- E; reflexivity|]. split; [intros x [<-|Hx]; [exact H|apply F; exact Hx]|exact G].
Qed.
(** nothing more when the tolerance exceeds what was reached *)
Lemma publish_wrap : forall len tol stop ks prev last, 0 <= last < tol -> tol < 2 ^ 63 -> (forall k, In k ks -> snd k < 2 ^ 63) -> publish_keys len tol stop prev last ks = [].
Proof.
  intros len tol stop ks. induction ks as [|(c & t) r IH]; intros prev last L T H; cbn [publish_keys]; [reflexivity|]. destruct (_ && _); [|reflexivity].
  cbn [publish_composition]. pose proof (H (c, t) (or_introl eq_refl)) as Ht. cbn in Ht. unfold NO_TIME. replace (last =? 2 ^ 64 - 1) with false by lia. cbn [orb].
  replace ((last - tol) mod 2 ^ 64 <=? t) with false by (symmetry; apply Z.leb_gt; rewrite <- (Z.mod_add _ 1) by lia; rewrite Z.mod_small by lia; lia).
  cbn [app]. apply IH; [exact L|exact T|]. intros k Hk. apply H. right; exact Hk.
Qed.

(** * samples *)
Definition desc (l : list (Z * Z)) (bs : list Z) (n g : Z) (e : event) : Prop :=
  match e with
  | Seg c t => nth_error l (Z.to_nat g) = Some (c, t) /\ forall b, In b bs -> b <= g \/ g + n <= b
  | Cross c t c2 t2 => nth_error l (Z.to_nat g) = Some (c, t) /\ exists b, In b bs /\ g < b < g + n /\ nth_error l (Z.to_nat b) = Some (c2, t2)
  end.
Lemma samples_length : forall t, 0 <= t_count t -> zlen (samples_of t) = t_count t.
Proof. intros t H. unfold zlen, samples_of. rewrite map_length, seq_length. lia. Qed.
Lemma samples_nth : forall t p, 0 <= p < t_count t -> nth_error (samples_of t) (Z.to_nat p) = Some (comp_of t p, computed_of t p).
Proof.
  intros t p H. unfold samples_of. rewrite nth_error_map. replace (nth_error (seq 0 (Z.to_nat (t_count t))) (Z.to_nat p)) with (Some (Z.to_nat p)).
  - cbn [option_map]. rewrite Z2Nat.id by lia. reflexivity.
  - symmetry. rewrite (nth_error_nth' _ 0%nat) by (rewrite seq_length; lia). rewrite seq_nth by lia. reflexivity.
Qed.
Definition seg_at (t : track) (p : Z) : event := Seg (comp_of t p) (computed_of t p).
Definition segs_from (t : track) (n p : Z) (m : nat) : list event := map (fun i => seg_at t (p + Z.of_nat i * n)) (seq 0 m).
Lemma segs_cons : forall t n p m, segs_from t n p (S m) = seg_at t p :: segs_from t n (p + n) m.
Proof.
  intros. unfold segs_from. cbn [seq map]. f_equal; [f_equal; lia|]. rewrite <- seq_shift, map_map. apply map_ext. intros i. f_equal. lia.
Qed.
Definition left_over (t : track) (n p : Z) (rep : option pending) : option pending :=
  if (t_count t - p) mod n =? 0 then rep
  else let q := t_count t - (t_count t - p) mod n in Some (mkpending (comp_of t q) (computed_of t q) ((t_count t - p) mod n)).
Lemma segments_ok : forall fuel t n stop p rep, 0 < n -> 0 <= p -> n <= t_count t - p -> t_count t - p < Z.of_nat fuel ->
  (forall q, 0 <= q < t_count t -> comp_of t q < stop) ->
  segments_from fuel t n stop p rep = Done (segs_from t n p (Z.to_nat ((t_count t - p) / n))) (left_over t n p rep).
Proof.
  induction fuel as [|fuel IH]; intros t n stop p rep N P L F C; [lia|]. cbn [segments_from].
  pose proof (C p ltac:(lia)). replace (comp_of t p <? stop) with true by lia. replace (p <? t_count t) with true by lia. cbn [andb].
  assert (D : (t_count t - p) / n = 1 + (t_count t - (p + n)) / n).
  { replace (t_count t - p) with (t_count t - (p + n) + 1 * n) by lia. rewrite Z.div_add by lia. lia. }
  assert (M : (t_count t - p) mod n = (t_count t - (p + n)) mod n).
  { replace (t_count t - p) with (t_count t - (p + n) + 1 * n) by lia. rewrite Z.mod_add by lia. reflexivity. }
  destruct (Z.leb_spec (t_count t) (p + n)).
  - assert (t_count t - (p + n) = 0) as Q by lia. rewrite D, Q. rewrite Z.div_0_l by lia. change (Z.to_nat (1 + 0)) with 1%nat. rewrite segs_cons. cbn [emit segs_from seq map].
    unfold left_over. rewrite M, Q, Z.mod_0_l by lia. reflexivity.
  - destruct (Z.ltb_spec (t_count t - (p + n)) n).
    + rewrite D, (Z.div_small (t_count t - (p + n))) by lia. change (Z.to_nat (1 + 0)) with 1%nat. rewrite segs_cons. cbn [emit segs_from seq map].
      unfold left_over. rewrite M, (Z.mod_small (t_count t - (p + n))) by lia. replace (t_count t - (p + n) =? 0) with false by lia.
      replace (t_count t - (t_count t - (p + n))) with (p + n) by lia. reflexivity.
    + rewrite IH by (try assumption; lia). rewrite D. cbn [emit].
      assert (0 <= (t_count t - (p + n)) / n) by (apply Z.div_pos; lia).
      replace (Z.to_nat (1 + (t_count t - (p + n)) / n)) with (S (Z.to_nat ((t_count t - (p + n)) / n))) by (rewrite Z2Nat.inj_add by lia; reflexivity).
      rewrite segs_cons. unfold left_over. rewrite M. reflexivity.
Qed.
Lemma segs_nth : forall t n p m k, (k < m)%nat -> nth_error (segs_from t n p m) k = Some (seg_at t (p + Z.of_nat k * n)).
Proof.
  intros. unfold segs_from. rewrite nth_error_map. rewrite (nth_error_nth' _ 0%nat) by (rewrite seq_length; lia). rewrite seq_nth by lia. reflexivity.
Qed.
Lemma bounds_shift : forall fs a x b, In b (file_bounds (a + x) fs) <-> In (b - x) (file_bounds a fs).
Proof.
  induction fs as [|f fs IH]; intros a x b; cbn [file_bounds]; [tauto|]. cbn [In]. replace (a + x + t_count f) with (a + t_count f + x) by lia. rewrite IH.
  split; (intros [E|H]; [left; lia|right; exact H]).
Qed.
Lemma bounds_min : forall fs a b, (forall f, In f fs -> 0 <= t_count f) -> In b (file_bounds a fs) -> a <= b.
Proof.
  induction fs as [|f fs IH]; intros a b H I; cbn [file_bounds] in I; [destruct I|]. destruct I as [->|I]; [lia|].
  apply IH in I; [|intros g Hg; apply H; right; exact Hg]. pose proof (H f (or_introl eq_refl)). lia.
Qed.
Definition pend_ok (n : Z) (rep : option pending) (pre : list (Z * Z)) : Prop :=
  match rep with
  | None => pre = []
  | Some r => zlen pre = r_samples r /\ 0 < r_samples r < n /\ nth_error pre 0 = Some (r_start r, r_computed r)
  end.
Lemma nth_app_right : forall (a b : list (Z * Z)) g x, zlen a = x -> x <= g -> nth_error (a ++ b) (Z.to_nat g) = nth_error b (Z.to_nat (g - x)).
Proof. intros a b g x E L. unfold zlen in E. rewrite nth_error_app2 by lia. f_equal. lia. Qed.
Lemma nth_app_left : forall (a b : list (Z * Z)) g, g < zlen a -> nth_error (a ++ b) (Z.to_nat g) = if g <? 0 then nth_error (a ++ b) 0 else nth_error a (Z.to_nat g).
Proof. intros a b g L. unfold zlen in L. destruct (Z.ltb_spec g 0); [replace (Z.to_nat g) with 0%nat by lia; reflexivity|]. apply nth_error_app1. lia. Qed.

Lemma files_ok : forall len stop n fs rep pre, 0 < n -> Forall (track_ok len stop n) fs -> pend_ok n rep pre ->
  exists es rep' pre', publish_files len stop fs rep = Done es rep'
   /\ Z.of_nat (length es) = zlen (pre ++ all_samples fs) / n
   /\ (forall k e, nth_error es k = Some e -> desc (pre ++ all_samples fs) (file_bounds (zlen pre) fs) n (Z.of_nat k * n) e)
   /\ pend_ok n rep' pre' /\ (exists A, pre ++ all_samples fs = A ++ pre' /\ zlen A = Z.of_nat (length es) * n).
Proof.
  intros len stop n fs. induction fs as [|f fs IH]; intros rep pre N F P.
  - exists [], rep, pre. cbn [publish_files all_samples flat_map]. rewrite app_nil_r. split; [reflexivity|].
    assert (zlen pre < n) by (destruct rep as [r|]; cbn [pend_ok] in P; [lia|subst pre; cbn; lia]). pose proof (zlen_nonneg pre).
    split; [rewrite Z.div_small by lia; reflexivity|]. split; [intros k e E; destruct k; discriminate|]. split; [exact P|]. exists []. split; reflexivity.
  - pose proof (Forall_inv F) as Ff. apply Forall_inv_tail in F. destruct Ff as (Dl & Sc & Of & Sd & Ln & Ct & St).
    cbn [publish_files]. set (x := zlen pre). assert (X : 0 <= x < n) by (subst x; pose proof (zlen_nonneg pre); destruct rep as [r|]; cbn [pend_ok] in P; [lia|subst pre; cbn; lia]).
    set (p0 := if x =? 0 then 0 else n - x). remember (Z.to_nat ((t_count f - p0) / n)) as m eqn:Hm. set (m1 := Z.of_nat m + (if x =? 0 then 0 else 1)).
    assert (P0 : 0 <= p0 < n) by (subst p0; destruct (Z.eqb_spec x 0); lia).
    assert (DivPos : 0 <= (t_count f - p0) / n) by (apply Z.div_pos; lia).
    assert (Cons : x + t_count f = m1 * n + (t_count f - p0) mod n).
    { subst m1. rewrite Hm, Z2Nat.id by lia. pose proof (Z.div_mod (t_count f - p0) n ltac:(lia)). subst p0. destruct (Z.eqb_spec x 0); nia. }
    assert (MP : (t_count f - p0) mod n < n) by (apply Z.mod_pos_bound; lia). assert (MP0 : 0 <= (t_count f - p0) mod n) by (apply Z.mod_pos_bound; lia).
    set (rm := (t_count f - p0) mod n) in *.
    assert (Lall : zlen (samples_of f) = t_count f) by (apply samples_length; lia).
    assert (M1 : 1 <= m1). { destruct (Z.le_gt_cases 1 m1); [assumption|]. nia. }
    (* the first file *)
    assert (First : exists es1, publish_audio len f 0 stop rep = Done es1 (left_over f n p0 None) /\ Z.of_nat (length es1) = m1
       /\ forall k e, nth_error es1 k = Some e -> desc (pre ++ all_samples (f :: fs)) (file_bounds x (f :: fs)) n (Z.of_nat k * n) e).
    { assert (Bd : forall g b, g + n <= m1 * n -> In b (file_bounds (x + t_count f) fs) -> g + n <= b).
      { intros g b G I1. apply bounds_min in I1; [lia|]. intros f' Hf. eapply Forall_forall in F; [|exact Hf]. unfold track_ok in F. lia. }
      assert (Nth : forall q, 0 <= q < t_count f -> nth_error (pre ++ all_samples (f :: fs)) (Z.to_nat (x + q)) = Some (comp_of f q, computed_of f q)).
      { intros q Q. rewrite (nth_app_right _ _ _ x eq_refl) by lia. replace (x + q - x) with q by lia. cbn [all_samples flat_map]. rewrite nth_error_app1 by (unfold zlen in Lall; lia). apply samples_nth. exact Q. }
      assert (SegD : forall k, Z.of_nat k < m1 -> p0 <= x + t_count f -> x <= Z.of_nat k * n -> desc (pre ++ all_samples (f :: fs)) (file_bounds x (f :: fs)) n (Z.of_nat k * n) (seg_at f (Z.of_nat k * n - x))).
      { intros k K _ G. cbn [desc seg_at]. assert (KN : Z.of_nat k * n + n <= m1 * n) by nia. split.
        - pose proof (Nth (Z.of_nat k * n - x) ltac:(lia)) as E. replace (x + (Z.of_nat k * n - x)) with (Z.of_nat k * n) in E by lia. exact E.
        - intros b [<-|I1]; [left; lia|]. right. apply Bd with (b := b); assumption. }
      unfold publish_audio. replace (t_off f <? 0) with false by lia. unfold sample_number. rewrite Z.mul_0_l, Z.div_0_l by lia. rewrite Z.div_0_l by lia. cbn [Z.eqb].
      replace (comp_of f 0 <? 0) with false.
      2:{ symmetry. apply Z.ltb_ge. unfold comp_of, sample_time. rewrite Z.mul_0_l, Z.mul_0_r, Z.div_0_l by lia. lia. }
      rewrite Ln. destruct rep as [r|].
      - cbn [pend_ok] in P. destruct P as (P1 & P2 & P3). fold x in P1. assert (x <> 0) by lia. 
        assert (E0 : (x =? 0) = false) by lia. subst p0 m1. rewrite E0 in *. rewrite Z.add_0_l. rewrite <- P1. replace (t_count f <=? n - x) with false by lia.
        rewrite segments_ok by (try assumption; lia). rewrite <- Hm. cbn [emit]. exists (Cross (r_start r) (r_computed r) (comp_of f 0) (computed_of f 0) :: segs_from f n (n - x) m).
        split; [reflexivity|]. split; [cbn [length]; unfold segs_from; rewrite map_length, seq_length; lia|].
        intros [|k] e E; cbn [nth_error] in E.
        + injection E as <-. cbn [desc]. split.
          * change (Z.to_nat (Z.of_nat 0 * n)) with 0%nat. destruct pre as [|q pre']; [discriminate|exact P3].
          * exists x. split; [left; reflexivity|]. split; [lia|]. pose proof (Nth 0 ltac:(lia)) as E. replace (x + 0) with x in E by lia. exact E.
        + assert (Lk : (k < m)%nat). { assert (NN : nth_error (segs_from f n (n - x) m) k <> None) by congruence. apply nth_error_Some in NN. unfold segs_from in NN. rewrite map_length, seq_length in NN. exact NN. }
          rewrite segs_nth in E by exact Lk. injection E as <-. replace (n - x + Z.of_nat k * n) with (Z.of_nat (S k) * n - x) by lia. apply SegD; [lia|lia|nia].
      - cbn [pend_ok] in P. subst pre. assert (x = 0) by reflexivity. assert (E0 : (x =? 0) = true) by lia. subst p0 m1. rewrite E0 in *.
        rewrite segments_ok by (try assumption; lia). rewrite <- Hm. exists (segs_from f n 0 m). split; [reflexivity|]. split; [unfold segs_from; rewrite map_length, seq_length; lia|].
        intros k e E. assert (Lk : (k < m)%nat). { assert (NN : nth_error (segs_from f n 0 m) k <> None) by congruence. apply nth_error_Some in NN. unfold segs_from in NN. rewrite map_length, seq_length in NN. exact NN. }
        rewrite segs_nth in E by exact Lk. assert (Q : seg_at f (0 + Z.of_nat k * n) = seg_at f (Z.of_nat k * n - x)) by (f_equal; lia). rewrite Q in E. injection E as <-. apply SegD; [lia|lia|nia]. }
    destruct First as (es1 & E1 & L1 & D1). rewrite E1.
    (* the others *)
    set (A := firstn (Z.to_nat (m1 * n)) (pre ++ samples_of f)). set (pre1 := skipn (Z.to_nat (m1 * n)) (pre ++ samples_of f)).
    assert (Split : pre ++ samples_of f = A ++ pre1) by (symmetry; apply firstn_skipn).
    assert (LA : zlen A = m1 * n). { subst A. unfold zlen in *. rewrite firstn_length, app_length. nia. }
    assert (Lp1 : zlen pre1 = rm). { subst pre1. unfold zlen in *. rewrite skipn_length, app_length. lia. }
    assert (P1 : pend_ok n (left_over f n p0 None) pre1).
    { unfold left_over. fold rm. destruct (Z.eqb_spec rm 0) as [Z0|NZ]; cbn [pend_ok].
      - destruct pre1; [reflexivity|]. exfalso. unfold zlen in Lp1. cbn [length] in Lp1. lia.
      - cbn [r_samples r_start r_computed]. split; [exact Lp1|]. split; [lia|].
        replace (nth_error pre1 0) with (nth_error (A ++ pre1) (Z.to_nat (m1 * n))) by (rewrite (nth_app_right _ _ _ (m1 * n) LA) by lia; replace (m1 * n - m1 * n) with 0 by lia; reflexivity).
        rewrite <- Split. assert (m1 * n >= x) by nia. rewrite (nth_app_right _ _ _ x eq_refl) by lia. replace (m1 * n - x) with (t_count f - rm) by lia. apply samples_nth. lia. }
    destruct (IH _ _ N F P1) as (es2 & rep' & pre' & E2 & L2 & D2 & P2 & (A2 & EA2 & LA2)). rewrite E2. exists (es1 ++ es2), rep', pre'. split; [reflexivity|].
    assert (Whole : pre ++ all_samples (f :: fs) = A ++ (pre1 ++ all_samples fs)) by (cbn [all_samples flat_map]; rewrite app_assoc, Split, <- app_assoc; reflexivity).
    split; [|split; [|split]].
    + rewrite app_length, Nat2Z.inj_add, L1, L2, Whole, (zlen_app A), LA. replace (m1 * n + zlen (pre1 ++ all_samples fs)) with (zlen (pre1 ++ all_samples fs) + m1 * n) by lia. rewrite Z.div_add by lia. lia.
    + intros k e E. destruct (Z.lt_ge_cases (Z.of_nat k) m1).
      * apply D1. rewrite nth_error_app1 in E by lia. exact E.
      * rewrite nth_error_app2 in E by lia. specialize (D2 _ _ E). rewrite Whole. rewrite Lp1 in D2.
        assert (G : Z.of_nat (k - length es1) * n = Z.of_nat k * n - m1 * n) by (rewrite Nat2Z.inj_sub by lia; rewrite L1; lia). rewrite G in D2. set (g := Z.of_nat k * n) in *. assert (m1 * n <= g) by (subst g; nia).
        assert (Bs : forall b, In b (file_bounds (zlen pre) (f :: fs)) -> b = x \/ In (b - m1 * n) (file_bounds rm fs)).
        { intros b [<-|I1]; [left; reflexivity|]. right. fold x in I1. replace (x + t_count f) with (rm + m1 * n) in I1 by lia. apply bounds_shift in I1. exact I1. }
        assert (Bs2 : forall b, In b (file_bounds rm fs) -> In (b + m1 * n) (file_bounds (zlen pre) (f :: fs))).
        { intros b I1. right. fold x. replace (x + t_count f) with (rm + m1 * n) by lia. apply bounds_shift. replace (b + m1 * n - m1 * n) with b by lia. exact I1. }
        destruct e as [c t|c t c2 t2]; cbn [desc] in *.
        -- destruct D2 as (D2 & B2). split; [rewrite (nth_app_right _ _ _ (m1 * n) LA) by lia; exact D2|]. intros b I1. apply Bs in I1. destruct I1 as [->|I1]; [left; nia|]. apply B2 in I1. lia.
        -- destruct D2 as (D2 & b & I1 & R & D3). split; [rewrite (nth_app_right _ _ _ (m1 * n) LA) by lia; exact D2|]. exists (b + m1 * n). split; [apply Bs2; exact I1|]. split; [lia|].
           rewrite (nth_app_right _ _ _ (m1 * n) LA) by lia. replace (b + m1 * n - m1 * n) with b by lia. exact D3.
    + exact P2.
    + exists (A ++ A2). split; [rewrite Whole, EA2, app_assoc; reflexivity|]. rewrite zlen_app, LA, LA2, app_length, Nat2Z.inj_add, L1. lia.
Qed.
