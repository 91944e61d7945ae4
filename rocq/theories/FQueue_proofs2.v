From Verif Require Import Util Bits_spec FQueue_model FQueue_proofs.
From Coq Require Import ZifyNat.
Local Open Scope Z_scope.

Section P.
Variable tsz : nat.
Variable cap : Z.
Hypothesis Hcap : 24 < cap < 2 ^ 31.
Notation INV := (Inv tsz cap).

Lemma init_inv m0 : INV (init m0 cap) [] /\ forall x, x < 0 \/ cap <= x -> init m0 cap x = m0 x.
Proof.
  split.
  - constructor.
    + unfold init, full_size. rewrite !set_other by lia. apply set_same. unfold inint. lia.
    + assert (D : deleted (init m0 cap) = 0) by (apply set_same; unfold inint; lia).
      assert (W : written (init m0 cap) = 0) by (unfold init, written; rewrite set_other by lia; apply set_same; unfold inint; lia).
      rewrite D, W. unfold INT_MAX. cbn. lia.
    + constructor.
    + exact Logic.I.
    + congruence.
    + left. cbn. lia.
  - intros x Hx. unfold init. rewrite !set_out by lia. reflexivity.
Qed.
Lemma clear_inv m L : INV m L -> INV (clear m) [] /\ forall x, x < 0 \/ cap <= x -> clear m x = m x.
Proof.
  intros I. pose proof (i_cnt _ _ _ _ I) as (C1 & C2 & C3). unfold clear.
  split; [|intros x Hx; apply set_out; lia].
  assert (D : deleted (set_int m 20 (written m)) = written m) by (apply set_same; unfold inint, INT_MAX in *; lia).
  assert (W : written (set_int m 20 (written m)) = written m) by (apply set_other; lia).
  constructor.
  - unfold full_size. rewrite set_other by lia. apply (i_full _ _ _ _ I).
  - rewrite D, W. cbn [length]. lia.
  - constructor.
  - exact Logic.I.
  - congruence.
  - left. cbn. lia.
Qed.
Lemma pick_ok m p L : INV m (p :: L) -> body_size m (start_offset m) = zlen (snd (snd p)) /\ pick_t tsz m = fst (snd p) /\ pick_data tsz m = snd (snd p).
Proof.
  intros I. destruct (i_ends _ _ _ _ I ltac:(discriminate)) as [E _]. change (first_off (p :: L)) with (fst p) in E.
  pose proof (i_items _ _ _ _ I) as F. inversion F as [|? ? [(A & B & C & D) Ok] _]; subst. unfold pick_t, pick_data, body_size. rewrite E, B.
  split; [reflexivity|]. split; [exact C|]. unfold zlen. rewrite Nat2Z.id. unfold IH. replace (fst p + (12 + Z.of_nat tsz)) with (fst p + 12 + Z.of_nat tsz) by lia. exact D.
Qed.
Lemma make_room_inv del space n : forall m L, INV m L -> (length L <= n)%nat ->
  exists k, (k <= length L)%nat /\ make_room tsz n del space m = drop k m /\ INV (drop k m) (skipn k L)
   /\ (forall x, x < 0 \/ cap <= x -> drop k m x = m x)
   /\ (del = false -> k = 0%nat) /\ (forall j, (j < k)%nat -> fits tsz (drop j m) space = false)
   /\ (fits tsz (drop k m) space = true \/ del = false \/ skipn k L = []).
Proof.
  induction n as [|n IHn]; intros m L I Hn; cbn [make_room].
  - destruct L; [|cbn in Hn; lia]. exists 0%nat. cbn [drop skipn length]. (split; [lia|]; split; [reflexivity|]; split; [exact I|]; split; [reflexivity|]; split; [reflexivity|]; split; [intros; lia|]). right; right; reflexivity.
  - rewrite (size_len _ _ _ _ I). destruct (fits tsz m space) eqn:F; cbn [orb].
    + exists 0%nat. cbn [drop skipn]. (split; [lia|]; split; [reflexivity|]; split; [exact I|]; split; [reflexivity|]; split; [reflexivity|]; split; [intros; lia|]). left; exact F.
    + destruct (Z.eqb_spec (Z.of_nat (length L)) 0) as [E|E].
      * exists 0%nat. destruct L; [|cbn in E; lia]. cbn [drop skipn length]. (split; [lia|]; split; [reflexivity|]; split; [exact I|]; split; [reflexivity|]; split; [reflexivity|]; split; [intros; lia|]). right; right; reflexivity.
      * destruct del.
        -- destruct L as [|p L]; [cbn in E; lia|]. destruct (delete_inv _ _ Hcap _ _ _ I) as [I' Fr].
           destruct (IHn _ _ I' ltac:(cbn in Hn; lia)) as (k & K1 & K2 & K3 & K4 & K5 & K6 & K7).
           exists (S k). cbn [drop skipn length]. split; [lia|]. split; [exact K2|]. split; [exact K3|]. split; [|split; [discriminate|split; [|exact K7]]].
           ++ intros x Hx. rewrite K4 by exact Hx. apply Fr. lia.
           ++ intros [|j] Hj; [exact F|]. apply K6. lia.
        -- exists 0%nat. cbn [drop skipn]. (split; [lia|]; split; [reflexivity|]; split; [exact I|]; split; [reflexivity|]; split; [reflexivity|]; split; [intros; lia|]). right; left; reflexivity.
Qed.
Lemma space_ok it : item_ok tsz it -> int_of (IH tsz + zlen (snd it)) = IH tsz + zlen (snd it) /\ item_space it = IH tsz + zlen (snd it).
Proof.
  intros (H & _ & _ & H2). split; [apply int_of_in; unfold inint, IH, zlen in *; lia|].
  unfold item_space, IH, zlen. rewrite H. reflexivity.
Qed.
Lemma push_inv del m L it : INV m L -> item_ok tsz it ->
  exists k, (k <= length L)%nat /\ (del = false -> k = 0%nat) /\ (forall j, (j < k)%nat -> fits tsz (drop j m) (item_space it) = false) /\
  ((exists m' o, push tsz cap del (fst it) (snd it) m = Pushed m' /\ INV m' (skipn k L ++ [(o, it)]) /\ (forall x, x < 0 \/ cap <= x -> m' x = m x)
     /\ fits tsz (drop k m) (item_space it) = true) \/
   (exists m', push tsz cap del (fst it) (snd it) m = Refused m' /\ INV m' (skipn k L) /\ (forall x, x < 0 \/ cap <= x -> m' x = m x)
     /\ fits tsz (drop k m) (item_space it) = false
     /\ (del = true -> skipn k L = []) /\ (skipn k L = [] -> cap - 24 < item_space it))).
Proof.
  intros I Ok. destruct (space_ok it Ok) as [S1 S2]. unfold push. rewrite S1, <- S2, (size_len _ _ _ _ I), Nat2Z.id.
  destruct (make_room_inv del (item_space it) _ m L I (le_n _)) as (k & K1 & K2 & K3 & K4 & K5 & K6 & K7).
  exists k. split; [exact K1|]. split; [exact K5|]. split; [exact K6|]. rewrite K2.
  destruct (fits tsz (drop k m) (item_space it)) eqn:F.
  - left. destruct it as [t d]. cbn [fst snd] in *. rewrite S2 in F |- *.
    destruct (place_inv tsz cap Hcap _ _ t d K3 Ok F) as (m' & o & E & I' & Fr & _).
    exists m', o. split; [exact E|]. split; [exact I'|]. split; [|reflexivity]. intros x Hx. rewrite Fr by exact Hx. apply K4, Hx.
  - right. exists (drop k m). unfold place. rewrite F. split; [reflexivity|]. split; [exact K3|]. split; [exact K4|]. split; [reflexivity|]. split.
    + intros ->. destruct K7 as [K7|[K7|K7]]; congruence.
    + intros E. rewrite E in K3. pose proof (head_eq _ _ _ _ K3) as H. pose proof (fits_spec tsz (drop k m) (item_space it)) as FS. rewrite F in FS.
      destruct (Z.lt_ge_cases (cap - 24) (item_space it)); [assumption|]. exfalso.
      assert (false = true); [apply FS; right; rewrite H; lia|discriminate].
Qed.
Lemma step_ok del o m L : INV m L -> (forall it, o = Push it -> item_ok tsz it) ->
  exists e m' L', step tsz cap del o m = Some (e, m') /\ INV m' L' /\ fifo cap del o (map snd L) e (map snd L')
   /\ (forall x, x < 0 \/ cap <= x -> m' x = m x).
Proof.
  intros I Ho. destruct o as [it|room|]; cbn [step fifo].
  - specialize (Ho it eq_refl). destruct (push_inv del m L it I Ho) as (k & K1 & K5 & K6 & [(m' & o & E & I' & Fr & F)|(m' & E & I' & Fr & F & D1 & D2)]).
    + rewrite E. exists EPushed, m', (skipn k L ++ [(o, it)]). split; [reflexivity|]. split; [exact I'|]. split; [|exact Fr].
      left. split; [reflexivity|]. exists k. rewrite map_app, map_length. cbn [map snd]. split; [|auto]. f_equal. clear. revert L. induction k; intros [|a L]; cbn; auto.
    + rewrite E. exists ERefused, m', (skipn k L). split; [reflexivity|]. split; [exact I'|]. split; [|exact Fr].
      right. split; [reflexivity|]. split.
      * destruct del; [rewrite (D1 eq_refl); split; [reflexivity|apply D2, D1; reflexivity]|]. rewrite (K5 eq_refl). reflexivity.
      * intros Eq. apply map_eq_nil in Eq. subst L. apply D2. apply skipn_nil.
  - unfold pop. rewrite (size_len _ _ _ _ I). destruct L as [|p L].
    + cbn [length]. change (Z.of_nat 0) with 0. cbn [Z.eqb map]. exists EEmpty, m, []. auto.
    + destruct (Z.eqb_spec (Z.of_nat (length (p :: L))) 0); [cbn [length] in *; lia|].
      destruct (pick_ok _ _ _ I) as (P1 & P2 & P3). rewrite P1, P2, P3. cbn [map].
      destruct (zlen (snd (snd p)) <=? room).
      * destruct (delete_inv _ _ Hcap _ _ _ I) as [I' Fr]. eexists _, _, L. split; [reflexivity|]. split; [exact I'|]. split; [auto|]. intros x Hx. apply Fr. lia.
      * eexists _, _, (p :: L). split; [reflexivity|]. split; [exact I|]. auto.
  - destruct (clear_inv m L I) as [I' Fr]. eexists _, _, []. split; [reflexivity|]. split; [exact I'|]. auto.
Qed.
Lemma run_ok del l : forall m L, INV m L -> ops_ok tsz l ->
  exists es m' L', run tsz cap del l m = Some (es, m') /\ INV m' L' /\ fifo_run cap del l (map snd L) es (map snd L')
   /\ (forall x, x < 0 \/ cap <= x -> m' x = m x).
Proof.
  induction l as [|o l IHl]; intros m L I Ho; cbn [run].
  - exists [], m, L. split; [reflexivity|]. split; [exact I|]. split; [constructor|auto].
  - destruct (step_ok del o m L I) as (e & m1 & L1 & E & I1 & F1 & Fr1).
    + intros it ->. apply Ho. left. reflexivity.
    + rewrite E. destruct (IHl m1 L1 I1) as (es & m2 & L2 & E2 & I2 & F2 & Fr2).
      { intros it Hin. apply Ho. right. exact Hin. }
      rewrite E2. exists (e :: es), m2, L2. split; [reflexivity|]. split; [exact I2|]. split; [econstructor; eauto|].
      intros x Hx. rewrite Fr2, Fr1 by exact Hx. reflexivity.
Qed.

(** layout *)
Lemma disjoint_straight lo p L hi : straight lo L hi -> oks tsz L -> fst p + item_space (snd p) <= lo -> disjoint_from (fst p) (snd p) L.
Proof.
  revert lo. induction L as [|[o it] L IHL]; intros lo S O H; [exact Logic.I|]. cbn [disjoint_from straight] in *. destruct S as [S1 S2]. inversion O; subst.
  split; [cbn in *; lia|]. apply (IHL _ S2 H3). destruct (isp_pos tsz (o, it) H2). cbn [fst] in *. lia.
Qed.
Lemma straight_disjoint lo L hi : straight lo L hi -> oks tsz L -> pairwise_disjoint L.
Proof.
  revert lo. induction L as [|[o it] L IHL]; intros lo S O; [exact Logic.I|]. cbn [pairwise_disjoint straight] in *. destruct S as [S1 S2]. inversion O; subst.
  split; [|eapply IHL; eauto]. apply (disjoint_straight _ (o, it) _ _ S2 H2). cbn. unfold isp. cbn. lia.
Qed.
Lemma disjoint_in o it L : (forall p, In p L -> o + item_space it <= fst p \/ fst p + item_space (snd p) <= o) -> disjoint_from o it L.
Proof. induction L as [|[o' it'] L IHL]; intros H; cbn; [exact Logic.I|]. split; [apply (H (o', it')); left; auto|]. apply IHL. intros p Hp. apply H. right. auto. Qed.
Lemma pairwise_app A B : pairwise_disjoint A -> pairwise_disjoint B ->
  (forall p q, In p A -> In q B -> fst q + item_space (snd q) <= fst p) -> pairwise_disjoint (A ++ B).
Proof.
  induction A as [|[o it] A IHA]; intros HA HB H; [exact HB|]. cbn [app pairwise_disjoint] in *. destruct HA as [H1 H2]. split.
  - clear IHA H2. revert H1. assert (G : forall q, In q B -> fst q + item_space (snd q) <= o) by (intros q Hq; apply (H (o, it) q); [left; auto|auto]).
    clear H. induction A as [|[o1 it1] A IHA]; cbn [app disjoint_from]; [intros _|].
    + apply disjoint_in. intros p Hp. right. apply G, Hp.
    + intros [Q1 Q2]. split; [exact Q1|]. apply IHA, Q2.
  - apply IHA; auto. intros p q Hp Hq. apply H; [right; auto|auto].
Qed.
Lemma inv_layout m L : INV m L -> layout_ok tsz cap m (map snd L).
Proof.
  intros I. exists L. split; [reflexivity|]. pose proof (inv_oks _ _ _ _ I) as O. split.
  - destruct (i_shape _ _ _ _ I) as [S|(A & B & NA & NB & -> & SA & SB)].
    + eapply straight_disjoint; eauto.
    + apply Forall_app in O. destruct O as [OA OB]. apply pairwise_app; try (eapply straight_disjoint; eauto).
      intros p q Hp Hq. destruct (straight_in tsz _ _ _ SA OA) as [_ Q]. destruct (straight_in tsz _ _ _ SB OB) as [_ R].
      specialize (Q p Hp). specialize (R q Hq). unfold isp in *. lia.
  - intros o it Hp. pose proof (proj1 (Forall_forall _ _) (i_items _ _ _ _ I) _ Hp) as [(_ & _ & S) _]. split; [exact S|].
    pose proof (inv_in _ _ _ _ I _ Hp). unfold isp in *. cbn [fst snd] in *. lia.
Qed.
Lemma used_cons x a : used (x :: a) = item_space x + used a.
Proof. reflexivity. Qed.
Lemma used_app a b : used (a ++ b) = used a + used b.
Proof. unfold used. induction a as [|x a IHa]; cbn [app fold_right]; [reflexivity|]. rewrite IHa. lia. Qed.
Lemma straight_used lo L hi : straight lo L hi -> lo + used (map snd L) <= hi.
Proof.
  revert lo. induction L as [|p L IHL]; intros lo; cbn; [lia|]. intros [H1 H2]. specialize (IHL _ H2). unfold isp, used in *. lia.
Qed.
Lemma inv_used m L : INV m L -> 24 + used (map snd L) <= cap.
Proof.
  intros I. destruct (i_shape _ _ _ _ I) as [S|(A & B & NA & NB & -> & SA & SB)].
  - apply straight_used, S.
  - rewrite map_app, used_app. pose proof (straight_used _ _ _ SA). pose proof (straight_used _ _ _ SB). lia.
Qed.
End P.

(** * the growing queue *)
Section G.
Variable tsz : nat.

Lemma used_nonneg q : 0 <= used q.
Proof. induction q as [|it q IHq]; cbn; [lia|]. unfold used, item_space, zlen in *. lia. Qed.
(** a compact queue *)
Definition compact (L : list (Z * item)) : Prop := L <> [] -> first_off L = 24 /\ last_off L + isp (last L d0) = 24 + used (map snd L).

Lemma compact_straight cap m L : Inv tsz cap m L -> compact L -> L <> [] -> first_off L <= last_off L.
Proof.
  intros I C N. destruct (C N) as [F E]. pose proof (inv_in _ _ _ _ I _ (last_in _ N)) as B. unfold last_off in *. rewrite F. lia.
Qed.
Lemma compact_push cap m L t d : 24 < cap < 2 ^ 31 -> Inv tsz cap m L -> compact L -> item_ok tsz (t, d) ->
  24 + used (map snd L) + item_space (t, d) <= cap ->
  exists m' o, push tsz cap false t d m = Pushed m' /\ Inv tsz cap m' (L ++ [(o, (t, d))]) /\ compact (L ++ [(o, (t, d))]).
Proof.
  intros Hcap I C Ok Hu. destruct (space_ok tsz _ Ok) as [S1 S2]. cbn [snd] in *. unfold push. rewrite S1, <- S2.
  assert (Ft : match L with [] => True | _ => item_space (t, d) <= tail_space tsz m end).
  { destruct L as [|p L]; [exact Logic.I|]. rewrite (tail_eq _ _ _ _ I). set (M := p :: L) in *. assert (N : M <> []) by discriminate.
    pose proof (compact_straight _ _ _ I C N). destruct (C N) as [_ E]. change (item_space (t, d) <= (if last_off M <? first_off M then first_off M - (last_off M + isp (last M d0)) else cap - (last_off M + isp (last M d0)))).
    destruct (Z.ltb_spec (last_off M) (first_off M)); lia. }
  assert (F : fits tsz m (item_space (t, d)) = true).
  { apply fits_spec. destruct L as [|p L]; [|left; exact Ft]. right. rewrite (head_eq _ _ _ _ I). change (used (map snd [])) with 0 in Hu. lia. }
  assert (R : make_room tsz (Z.to_nat (size m)) false (item_space (t, d)) m = m).
  { destruct (Z.to_nat (size m)); cbn [make_room]; [reflexivity|]. rewrite F. reflexivity. }
  rewrite R. rewrite S2 in F |- *. destruct (place_inv tsz cap Hcap m L t d I Ok F) as (m' & o & E & I' & _ & Eo).
  exists m', o. split; [exact E|]. split; [exact I'|]. intros _. unfold last_off. rewrite last_app_one, map_app, used_app. cbn [map used fold_right fst snd].
  rewrite <- S2 in *. unfold isp. cbn [snd fst].
  destruct L as [|p L].
  - subst o. split; [reflexivity|]. change (used (map snd [])) with 0. unfold HDR. lia.
  - destruct (C ltac:(discriminate)) as [C1 C2]. split; [exact C1|].
    destruct (Z.leb_spec (item_space (t, d)) (tail_space tsz m)); [|lia]. subst o. unfold last_off in C2. unfold last_off. lia.
Qed.
Lemma move_ok c cap n : 24 < c < 2 ^ 31 -> 24 < cap < 2 ^ 31 -> forall old L new N, (length L <= n)%nat -> Inv tsz c old L -> Inv tsz cap new N -> compact N ->
  24 + used (map snd N) + used (map snd L) <= cap ->
  exists new' N', move_items tsz n cap old new = Some new' /\ Inv tsz cap new' N' /\ compact N' /\ map snd N' = map snd N ++ map snd L.
Proof.
  intros Hc Hcap. induction n as [|n IHn]; intros old L new N Hn Io In_ C Hu; cbn [move_items]; rewrite (size_len _ _ _ _ Io).
  - destruct L; [|cbn in Hn; lia]. exists new, N. rewrite app_nil_r. auto.
  - destruct L as [|[o it] L].
    + exists new, N. rewrite app_nil_r. auto.
    + destruct (Z.eqb_spec (Z.of_nat (length ((o, it) :: L))) 0); [cbn [length] in *; lia|].
      destruct (pick_ok _ _ _ _ _ Io) as (_ & -> & ->). cbn [snd]. destruct it as [t d]. cbn [fst snd].
      pose proof (inv_oks _ _ _ _ Io) as O. inversion O; subst. cbn [snd] in *.
      cbn [map snd] in Hu. rewrite used_cons in Hu. pose proof (used_nonneg (map snd L)).
      destruct (compact_push cap new N t d Hcap In_ C H1 ltac:(lia)) as (new1 & o1 & -> & I1 & C1).
      destruct (delete_inv _ _ Hc _ _ _ Io) as [I' _].
      assert (Hl : (length L <= n)%nat) by (cbn in Hn; lia).
      destruct (IHn _ _ _ _ Hl I' I1 C1) as (new' & N' & E & I2 & C2 & M).
      * rewrite map_app, used_app. cbn [map snd]. rewrite used_cons. change (used []) with 0. lia.
      * exists new', N'. split; [exact E|]. split; [exact I2|]. split; [exact C2|]. rewrite M, map_app. cbn [map snd]. rewrite <- app_assoc. reflexivity.
Qed.
Lemma grow_ok fresh c m L : 24 < c < 2 ^ 31 -> Inv tsz c m L -> 2 * c < INT_MAX ->
  exists m' L', grow tsz fresh m = Some (2 * c, m') /\ Inv tsz (2 * c) m' L' /\ compact L' /\ map snd L' = map snd L.
Proof.
  intros Hc I H2. unfold grow. rewrite (i_full _ _ _ _ I). destruct (Z.leb_spec INT_MAX (2 * c)); [lia|]. unfold INT_MAX in *.
  rewrite (size_len _ _ _ _ I), Nat2Z.id.
  destruct (init_inv tsz (2 * c) ltac:(lia) fresh) as [I0 _].
  destruct (move_ok c (2 * c) (length L) Hc ltac:(lia) m L _ [] (le_n _) I I0) as (m' & N' & E & I' & C' & M).
  - intros N; congruence.
  - pose proof (inv_used _ _ _ _ I). change (used (map snd [])) with 0. lia.
  - rewrite E. exists m', N'. auto.
Qed.
Lemma compact_fits c m L it : 24 < c < 2 ^ 31 -> Inv tsz c m L -> compact L -> item_ok tsz it -> 24 + used (map snd L) + item_space it <= c -> fits tsz m (item_space it) = true.
Proof.
  intros Hc I C Ok Hu. apply fits_spec. destruct L as [|p L].
  - right. rewrite (head_eq _ _ _ _ I). change (used (map snd [])) with 0 in Hu. lia.
  - left. rewrite (tail_eq _ _ _ _ I). set (M := p :: L) in *. assert (N : M <> []) by discriminate.
    pose proof (compact_straight _ _ _ I C N). destruct (C N) as [_ E]. change (item_space it <= (if last_off M <? first_off M then first_off M - (last_off M + isp (last M d0)) else c - (last_off M + isp (last M d0)))).
    destruct (Z.ltb_spec (last_off M) (first_off M)); lia.
Qed.
(** safety: whatever is pushed is appended *)
Lemma gpush_safe fresh it f : forall c m L, 24 < c < 2 ^ 31 -> Inv tsz c m L -> item_ok tsz it ->
  match gpush_loop tsz f fresh (fst it) (snd it) c m with
  | GPushed c' m' => 24 < c' < 2 ^ 31 /\ exists L', Inv tsz c' m' L' /\ map snd L' = map snd L ++ [it]
  | GFail => True end.
Proof.
  induction f as [|f IHf]; intros c m L Hc I Ok; destruct (space_ok tsz it Ok) as [S1 S2]; cbn [gpush_loop]; rewrite S1.
  - destruct (fits tsz m (IH tsz + zlen (snd it))) eqn:F; [|exact Logic.I]. destruct it as [t d]. cbn [fst snd] in *.
    destruct (place_inv tsz c Hc m L t d I Ok F) as (m' & o & -> & I' & _). split; [exact Hc|]. exists (L ++ [(o, (t, d))]). split; [exact I'|]. rewrite map_app. reflexivity.
  - destruct (fits tsz m (IH tsz + zlen (snd it))) eqn:F.
    + destruct it as [t d]. cbn [fst snd] in *.
      destruct (place_inv tsz c Hc m L t d I Ok F) as (m' & o & -> & I' & _). split; [exact Hc|]. exists (L ++ [(o, (t, d))]). split; [exact I'|]. rewrite map_app. reflexivity.
    + destruct (Z.lt_ge_cases (2 * c) INT_MAX) as [H2|H2].
      * destruct (grow_ok fresh c m L Hc I H2) as (m1 & L1 & -> & I1 & _ & M1). unfold INT_MAX in *.
        specialize (IHf (2 * c) m1 L1 ltac:(lia) I1 Ok). rewrite M1 in IHf. exact IHf.
      * unfold grow. rewrite (i_full _ _ _ _ I). destruct (Z.leb_spec INT_MAX (2 * c)); [exact Logic.I|lia].
Qed.
(** progress: it does not fail while the data stays below a gigabyte *)
Lemma gpush_progress fresh it f : forall c m L, 24 < c -> Inv tsz c m L -> item_ok tsz it -> c < 2 ^ 30 - 1 ->
  24 + used (map snd L) + item_space it < 2 ^ 30 - 1 -> 2 ^ 30 <= c * 2 ^ Z.of_nat f -> 
  exists c' m', gpush_loop tsz f fresh (fst it) (snd it) c m = GPushed c' m'.
Proof.
  induction f as [|f IHf]; intros c m L Hc I Ok Hb Hu Hf; [cbn in Hf; lia|].
  destruct (space_ok tsz it Ok) as [S1 S2]. assert (Hc' : 24 < c < 2 ^ 31) by lia.
  cbn [gpush_loop]. rewrite S1.
  destruct (fits tsz m (IH tsz + zlen (snd it))) eqn:F.
  - destruct it as [t d]. cbn [fst snd] in *. destruct (place_inv tsz c Hc' m L t d I Ok F) as (m' & o & -> & _). eauto.
  - destruct (grow_ok fresh c m L Hc' I ltac:(unfold INT_MAX; lia)) as (m1 & L1 & -> & I1 & C1 & M1).
    destruct (fits tsz m1 (item_space it)) eqn:F1.
    + rewrite S2 in F1. destruct it as [t d]. cbn [fst snd] in *.
      assert (Hc2 : 24 < 2 * c < 2 ^ 31) by lia.
      destruct (place_inv tsz (2 * c) Hc2 m1 L1 t d I1 Ok F1) as (m' & o & E & _).
      destruct f; cbn [gpush_loop]; rewrite S1, F1, E; eauto.
    + assert (2 * c < 24 + used (map snd L) + item_space it).
      { destruct (Z.lt_ge_cases (2 * c) (24 + used (map snd L) + item_space it)); [assumption|]. exfalso.
        rewrite (compact_fits (2 * c) m1 L1 it) in F1; try discriminate; auto; try lia. rewrite M1. lia. }
      apply (IHf (2 * c) m1 L1); auto; try lia.
      * rewrite M1. lia.
      * rewrite Nat2Z.inj_succ, Z.pow_succ_r in Hf by lia. lia.
Qed.
Lemma grun_ok fresh l : forall c m L, 24 < c < 2 ^ 31 -> Inv tsz c m L -> ops_ok tsz l ->
  match grun tsz fresh l c m with
  | Some (es, c', m') => exists L', Inv tsz c' m' L' /\ 24 < c' < 2 ^ 31 /\ lossless_run l (map snd L) es (map snd L')
  | None => True end.
Proof.
  induction l as [|o l IHl]; intros c m L Hc I Ho; cbn [grun].
  - exists L. split; [exact I|]. split; [exact Hc|constructor].
  - assert (Hstep : match gstep tsz fresh o c m with Some (e, c1, m1) => 24 < c1 < 2 ^ 31 /\ exists L1, Inv tsz c1 m1 L1 /\ lossless o (map snd L) e (map snd L1) | None => True end).
    { destruct o as [it|room|]; cbn [gstep lossless].
      - pose proof (gpush_safe fresh it 32 c m L Hc I (Ho it (or_introl eq_refl))) as G. unfold gpush. destruct (gpush_loop tsz 32 fresh (fst it) (snd it) c m); [|exact Logic.I].
        destruct G as [G1 (L' & G2 & G3)]. split; [exact G1|]. exists L'. auto.
      - destruct (step_ok tsz c Hc false (Pop room) m L I ltac:(discriminate)) as (e & m' & L' & E & I' & F & _). cbn [step fifo] in *.
        destruct (pop tsz room m) as [[[[t n] dd] m2]|]; injection E as <- <-; (split; [exact Hc|]); exists L'; auto.
      - destruct (clear_inv tsz c Hc m L I) as [I' _]. split; [exact Hc|]. exists []. auto. }
    destruct (gstep tsz fresh o c m) as [[[e c1] m1]|]; [|exact Logic.I]. destruct Hstep as [Hc1 (L1 & I1 & F1)].
    specialize (IHl c1 m1 L1 Hc1 I1 (fun it Hin => Ho it (or_intror Hin))).
    destruct (grun tsz fresh l c1 m1) as [[[es c2] m2]|]; [|exact Logic.I]. destruct IHl as (L2 & I2 & Hc2 & F2).
    exists L2. split; [exact I2|]. split; [exact Hc2|]. econstructor; eauto.
Qed.
End G.

(** a block longer than INT_MAX: the 32-bit size computation goes negative *)
Lemma huge_push tsz cap m0 del t data : 24 < cap < 2 ^ 31 -> zlen t = Z.of_nat tsz ->
  2 ^ 31 <= 12 + Z.of_nat tsz + zlen data < 2 ^ 32 ->
  push tsz cap del t data (init m0 cap) = OutOfBlock.
Proof.
  intros Hc Ht Hd. unfold push. set (sp := int_of (IH tsz + zlen data)).
  assert (Hsp : sp < 0). { unfold sp, int_of, IH. rewrite Z.mod_small by lia. destruct (Z.ltb_spec (12 + Z.of_nat tsz + zlen data) (2 ^ 31)); lia. }
  destruct (init_inv tsz cap Hc m0) as [I _]. rewrite (size_len _ _ _ _ I). cbn [length Z.of_nat Z.to_nat make_room].
  unfold place. assert (F : fits tsz (init m0 cap) sp = true). { apply fits_spec. left. rewrite (tail_eq _ _ _ _ I). lia. }
  rewrite F, (size_len _ _ _ _ I). cbn [length Z.of_nat Z.eqb negb]. rewrite Bool.andb_false_r.
  destruct (Z.leb_spec 0 HDR); [|reflexivity]. cbn [andb].
  match goal with |- (if ?a + zlen ?l <=? ?c then _ else _) = _ => destruct (Z.leb_spec (a + zlen l) c) as [Q|Q]; [|reflexivity] end.
  exfalso. rewrite !zlen_app, !zl4, Ht in Q. unfold HDR in Q. lia.
Qed.

(** * statements about reachable states *)
Lemma drop_minimal tsz cap m L it : 24 < cap < 2 ^ 31 -> Inv tsz cap m L -> item_ok tsz it ->
  exists k, (k <= length L)%nat
   /\ (forall j, (j < k)%nat -> push tsz cap false (fst it) (snd it) (drop j m) = Refused (drop j m))
   /\ push tsz cap true (fst it) (snd it) m = push tsz cap false (fst it) (snd it) (drop k m)
   /\ (push tsz cap true (fst it) (snd it) m = Refused (drop k m) -> k = length L).
Proof.
  intros Hc I Ok. destruct (space_ok tsz it Ok) as [S1 S2].
  assert (R : forall n x, make_room tsz n false (item_space it) x = x).
  { intros [|n] x; cbn [make_room]; [reflexivity|]. destruct (_ || _); reflexivity. }
  unfold push. rewrite S1, <- S2, (size_len _ _ _ _ I), Nat2Z.id.
  destruct (make_room_inv tsz cap Hc true (item_space it) _ m L I (le_n _)) as (k & K1 & K2 & K3 & K4 & K5 & K6 & K7).
  exists k. split; [exact K1|]. rewrite K2. split; [|split].
  - intros j Hj. rewrite R. unfold place. rewrite (K6 j Hj). reflexivity.
  - rewrite R. reflexivity.
  - intros E. destruct K7 as [K7|[K7|K7]]; [|discriminate|].
    + unfold place in E. rewrite K7 in E. destruct (_ && _) in E; discriminate.
    + apply (f_equal (@length _)) in K7. rewrite skipn_length in K7. cbn in K7. lia.
Qed.
Lemma accepted_iff tsz cap m L it : 24 < cap < 2 ^ 31 -> Inv tsz cap m L -> item_ok tsz it ->
  ((exists m', push tsz cap false (fst it) (snd it) m = Pushed m') <-> room_for cap L (item_space it))
  /\ (~ room_for cap L (item_space it) -> push tsz cap false (fst it) (snd it) m = Refused m).
Proof.
  intros Hc I Ok. destruct (space_ok tsz it Ok) as [S1 S2].
  assert (R : forall n x, make_room tsz n false (item_space it) x = x).
  { intros [|n] x; cbn [make_room]; [reflexivity|]. destruct (_ || _); reflexivity. }
  assert (Sp : 12 <= item_space it) by (unfold item_space, zlen; lia).
  assert (Q : fits tsz m (item_space it) = true <-> room_for cap L (item_space it)).
  { rewrite fits_spec, (head_eq _ _ _ _ I), (tail_eq _ _ _ _ I). destruct L as [|p L]; [cbn [room_for]; lia|].
    cbn [room_for]. destruct p as [f fi]. set (M := (f, fi) :: L) in *. cbv zeta. change (first_off M) with f.
    assert (NM : M <> []) by discriminate. pose proof (app_removelast_last d0 NM) as EM.
    unfold last_off. split.
    - intros H. exists (fst (last M d0)), (snd (last M d0)). split; [exists (removelast M); rewrite <- surjective_pairing; exact EM|].
      unfold isp in H. destruct (Z.ltb_spec (fst (last M d0)) f); lia.
    - intros (la & li & (L' & EL) & H). assert (last M d0 = (la, li)) as -> by (rewrite EL; apply last_last). unfold isp. cbn [fst snd].
      destruct (la <? f); lia. }
  unfold push. rewrite S1, <- S2, R. split.
  - rewrite <- Q. split.
    + intros (m' & E). unfold place in E. destruct (fits tsz m (item_space it)); [reflexivity|discriminate].
    + intros F. destruct it as [t d]. rewrite S2 in F |- *. destruct (place_inv tsz cap Hc m L t d I Ok F) as (m' & o & E & _). exists m'. exact E.
  - intros N. rewrite <- Q in N. unfold place. destruct (fits tsz m (item_space it)); [exfalso; apply N; reflexivity|reflexivity].
Qed.
Lemma empties_intro tsz cap m0 ops it :
  match run tsz cap true ops (init m0 cap) with
  | Some (_, m) => (size m =? 2) && match push tsz cap true (fst it) (snd it) m with Refused m' => size m' =? 0 | _ => false end
  | None => false end = true ->
  exists es m m', run tsz cap true ops (init m0 cap) = Some (es, m) /\ size m = 2 /\ push tsz cap true (fst it) (snd it) m = Refused m' /\ size m' = 0.
Proof.
  destruct (run tsz cap true ops (init m0 cap)) as [[es m]|]; [|discriminate]. intros H. apply andb_prop in H. destruct H as [H1 H2].
  destruct (push tsz cap true (fst it) (snd it) m) as [|m'|] eqn:E2; try discriminate.
  exists es, m, m'. split; [reflexivity|]. split; [apply Z.eqb_eq, H1|]. split; [exact E2|apply Z.eqb_eq, H2].
Qed.
