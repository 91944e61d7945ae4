(** Lemmas on the index of a dynamic stream: building, rendering, rebasing. *)
From Coq Require Import String ZifyNat Sorted.
From Verif Require Import Util Dec_spec Dec_lemmas Str_model Mpd_model Mpd_proofs Points_model Points_proofs.
Local Open Scope Z_scope.

Lemma get_key : forall {A} (m : zmap A) k, has_key m k <-> get k m <> None.
Proof.
  unfold has_key. induction m as [|(k' & v) r IH]; intros k; cbn [map fst get]; [split; [intros []|intros H; contradiction]|].
  destruct (Z.eqb_spec k k') as [->|N]; [split; [discriminate|left; reflexivity]|]. rewrite <- IH. cbn [In]. split; [intros [E|H]; [congruence|exact H]|right; assumption].
Qed.
Lemma get_in : forall {A} (m : zmap A) k v, sorted m -> (In (k, v) m <-> get k m = Some v).
Proof.
  induction m as [|(k' & v') r IH]; intros k v S; cbn [get In]; [split; [intros []|discriminate]|].
  destruct S as (F & S). destruct (Z.eqb_spec k k') as [->|N].
  - split; [intros [E|H]; [injection E as <-; reflexivity|]|intros E; injection E as <-; left; reflexivity].
    eapply Forall_forall in F; [|exact H]. cbn in F. lia.
  - rewrite <- IH by exact S. split; [intros [E|H]; [injection E as <- <-; contradiction|exact H]|right; assumption].
Qed.
Lemma last_added_app : forall ops o t, last_added t (ops ++ [o]) = match last_added t [o] with Some v => Some v | None => last_added t ops end.
Proof.
  induction ops as [|a ops IH]; intros o t; [cbn [app]; destruct (last_added t [o]); reflexivity|].
  cbn [app last_added] in *. rewrite IH. destruct (match o with Add _ _ => _ | AddFile _ => _ | AddCross _ _ _ _ => _ end); reflexivity.
Qed.
Lemma build_app : forall ops o, build (ops ++ [o]) = index_step (build ops) o.
Proof. intros. unfold build. rewrite fold_left_app. reflexivity. Qed.
Lemma get_build : forall ops t, get t (i_points (build ops)) = last_added t ops.
Proof.
  intros ops t. induction ops as [|o ops IH] using rev_ind; [reflexivity|]. rewrite build_app, last_added_app.
  destruct o as [t' v|t'|t' c t2 c2]; cbn [index_step i_points last_added].
  - destruct (Z.eqb_spec t' t) as [->|N]; [apply get_put_same|rewrite get_put_other by congruence; exact IH].
  - exact IH.
  - destruct (Z.eqb_spec t' t) as [->|N]; [apply get_put_same|rewrite get_put_other by congruence; exact IH].
Qed.
Lemma build_sorted : forall ops, sorted (i_points (build ops)).
Proof.
  induction ops as [|o ops IH] using rev_ind; [exact I|]. rewrite build_app.
  destruct o; cbn [index_step i_points]; [apply put_sorted; exact IH|exact IH|apply put_sorted; exact IH].
Qed.
Lemma build_cross_sorted : forall ops, sorted (i_cross (build ops)).
Proof.
  induction ops as [|o ops IH] using rev_ind; [exact I|]. rewrite build_app.
  destruct o; cbn [index_step i_cross]; [exact IH|exact IH|apply put_sorted; exact IH].
Qed.
Lemma added_key : forall ops k, added k ops <-> has_key (i_points (build ops)) k.
Proof. intros. unfold added. rewrite get_key, get_build. reflexivity. Qed.
(** the set of file starts *)
Lemma set_insert_in : forall x s y, In y (set_insert x s) <-> y = x \/ In y s.
Proof.
  induction s as [|z r IH]; intros y; cbn [set_insert In]; [intuition|].
  destruct (Z.ltb_spec x z); [cbn [In]; intuition|]. destruct (Z.eqb_spec x z) as [->|N]; cbn [In]; [intuition congruence|]. rewrite IH. intuition.
Qed.
Lemma set_insert_sorted : forall x s, StronglySorted Z.lt s -> StronglySorted Z.lt (set_insert x s).
Proof.
  induction s as [|z r IH]; intros S; cbn [set_insert]; [repeat constructor|].
  inversion S as [|? ? S' F]; subst. destruct (Z.ltb_spec x z).
  - constructor; [exact S|]. constructor; [exact H|]. eapply Forall_impl; [|exact F]. intros; lia.
  - destruct (Z.eqb_spec x z) as [->|N]; [exact S|]. constructor; [apply IH; exact S'|]. apply Forall_forall. intros y Hy. apply set_insert_in in Hy.
    destruct Hy as [->|Hy]; [lia|]. eapply Forall_forall in F; [exact F|exact Hy].
Qed.
Lemma files_build : forall ops x, In x (i_files (build ops)) <-> In (AddFile x) ops.
Proof.
  intros ops x. induction ops as [|o ops IH] using rev_ind; [reflexivity|]. rewrite build_app, in_app_iff. cbn [In].
  destruct o; cbn [index_step i_files]; try (rewrite IH; intuition congruence). rewrite set_insert_in, IH. intuition congruence.
Qed.
Lemma files_sorted : forall ops, StronglySorted Z.lt (i_files (build ops)).
Proof.
  induction ops as [|o ops IH] using rev_ind; [constructor|]. rewrite build_app.
  destruct o; cbn [index_step i_files]; try exact IH. apply set_insert_sorted; exact IH.
Qed.
Lemma eqset_eq : forall a b, eqset a b = true <-> a = b.
Proof.
  induction a as [|x a IH]; intros [|y b]; cbn [eqset]; try (split; [discriminate|discriminate]); [tauto|].
  rewrite Bool.andb_true_iff, IH, Z.eqb_eq. split; [intros (-> & ->); reflexivity|intros E; injection E as -> ->; tauto].
Qed.
Lemma upper_in : forall s t x, StronglySorted Z.lt s -> (In x (upper_bound t s) <-> In x s /\ t < x).
Proof.
  induction s as [|z r IH]; intros t x S; cbn [upper_bound]; [cbn; tauto|]. inversion S as [|? ? S' F]; subst.
  destruct (Z.leb_spec z t).
  - rewrite IH by exact S'. cbn [In]. intuition. lia.
  - split; [|tauto]. intros I. split; [exact I|]. destruct I as [<-|I]; [exact H|]. eapply Forall_forall in F; [|exact I]. lia.
Qed.
Lemma upper_same : forall s a b, StronglySorted Z.lt s -> a <= b -> (forall x, In x s -> x <= a \/ b < x) -> upper_bound a s = upper_bound b s.
Proof.
  induction s as [|z r IH]; intros a b S L H; cbn [upper_bound]; [reflexivity|]. inversion S as [|? ? S' F]; subst.
  destruct (H z (or_introl eq_refl)).
  - replace (z <=? a) with true by lia. replace (z <=? b) with true by lia. apply IH; [exact S'|exact L|]. intros x Hx. apply H. right; exact Hx.
  - replace (z <=? a) with false by lia. replace (z <=? b) with false by lia. reflexivity.
Qed.
Lemma from_key_split : forall {A} (m : zmap A) a b v w, sorted m -> In (a, v) m -> In (b, w) m -> a < b -> (forall k, has_key m k -> k <= a \/ b <= k) ->
  exists r, from_key a m = (a, v) :: (b, w) :: r.
Proof.
  induction m as [|(k & u) r IH]; intros a b v w S Ha Hb L N; [destruct Ha|]. cbn [from_key]. pose proof S as S0. destruct S as (F & S).
  destruct (Z.eqb_spec k a) as [->|D].
  - destruct Ha as [E|Ha]; [injection E as ->|eapply Forall_forall in F; [|exact Ha]; cbn in F; lia].
    destruct r as [|(k2 & u2) r]; [destruct Hb as [E|[]]; injection E as -> ->; lia|].
    assert (k2 = b). { destruct Hb as [E|[E|Hb]]; [injection E as -> ->; lia|injection E as -> ->; reflexivity|].
      destruct S as (F2 & _). eapply Forall_forall in F2; [|exact Hb]. cbn in F2. pose proof (Forall_inv F). cbn in H. destruct (N k2 (or_intror (or_introl eq_refl))); lia. }
    subst k2. destruct Hb as [E|[E|Hb]]; [injection E as -> ->; lia|injection E as ->; exists r; reflexivity|]. destruct S as (F2 & _). eapply Forall_forall in F2; [|exact Hb]. cbn in F2. lia.
  - destruct Ha as [E|Ha]; [injection E as -> ->; contradiction|]. destruct Hb as [E|Hb]; [injection E as -> ->; eapply Forall_forall in F; [|exact Ha]; cbn in F; lia|].
    apply IH; try assumption. intros k' H'. apply N. right; exact H'.
Qed.
Lemma end_ok : forall ops a b va vb, next_point a b ops -> last_added a ops = Some va -> last_added b ops = Some vb ->
  (file_between a b ops -> index_end (build ops) a = Value (va + (b - a))) /\ (~ file_between a b ops -> index_end (build ops) a = Value vb).
Proof.
  intros ops a b va vb (Aa & Ab & L & N) Ea Eb. unfold index_end, get_end. rewrite <- get_build in Ea, Eb. apply get_in in Ea; [|apply build_sorted]. apply get_in in Eb; [|apply build_sorted].
  destruct (from_key_split _ a b va vb (build_sorted ops) Ea Eb L) as (r & ->); [intros k Hk; apply N; apply added_key; exact Hk|].
  split.
  - intros (x & Hx & R). destruct (eqset _ _) eqn:Q; [|reflexivity]. exfalso. apply eqset_eq in Q. apply files_build in Hx.
    assert (I : In x (upper_bound a (i_files (build ops)))) by (apply upper_in; [apply files_sorted|split; [exact Hx|lia]]).
    rewrite Q in I. apply upper_in in I; [lia|apply files_sorted].
  - intros NB. replace (eqset _ _) with true; [reflexivity|]. symmetry. apply eqset_eq. apply upper_same; [apply files_sorted|lia|].
    intros x Hx. apply files_build in Hx. destruct (Z.le_gt_cases x a); [left; assumption|]. right. destruct (Z.lt_ge_cases b x); [assumption|]. exfalso. apply NB. exists x. split; [exact Hx|lia].
Qed.

(** * rendering *)
Lemma maxt_cons : forall {A} (m : zmap A) p q, maxt (p :: q :: m) = maxt (q :: m).
Proof. reflexivity. Qed.
Lemma maxt_key : forall {A} (m : zmap A), m <> [] -> has_key m (maxt m).
Proof.
  induction m as [|p m IH]; intros H; [contradiction|]. destruct m as [|q m]; [left; reflexivity|]. rewrite maxt_cons. right. apply IH. discriminate.
Qed.
Lemma maxt_max : forall {A} (m : zmap A) k, sorted m -> has_key m k -> k <= maxt m.
Proof.
  induction m as [|(k0 & v) m IH]; intros k S H; [destruct H|]. destruct S as (F & S). destruct m as [|q m].
  - destruct H as [<-|[]]. apply Z.le_refl.
  - rewrite maxt_cons. destruct H as [<-|H]; [|apply IH; assumption].
    assert (M : has_key (q :: m) (maxt (q :: m))) by (apply maxt_key; discriminate). unfold has_key in M. apply in_map_iff in M. destruct M as (y & E & M).
    eapply Forall_forall in F; [|exact M]. cbn [fst] in *. lia.
Qed.
Lemma mint_min : forall {A} (m : zmap A) k, sorted m -> has_key m k -> mint m <= k.
Proof.
  intros A [|(k0 & v) m] k S H; [destruct H|]. destruct S as (F & S). cbn [mint]. destruct H as [<-|H]; [apply Z.le_refl|].
  apply in_map_iff in H. destruct H as (y & <- & H). eapply Forall_forall in F; [|exact H]. cbn in *. lia.
Qed.
Lemma mint_key : forall {A} (m : zmap A), m <> [] -> has_key m (mint m).
Proof. intros A [|(k & v) m] H; [contradiction|]. left. reflexivity. Qed.
Lemma render_contiguous : forall m t te, sorted ((t, te) :: m) -> contiguous t (maxt ((t, te) :: m)) (segs (render_from t te m)).
Proof.
  induction m as [|(k & v) m IH]; intros t te S; cbn [render_from segs map]; [reflexivity|]. rewrite maxt_cons.
  cbn [contiguous p_time p_dur]. destruct S as (F & S). pose proof (Forall_inv F) as L. cbn in L. split; [reflexivity|]. split; [lia|].
  replace (t + (k - t)) with k by lia. apply IH. exact S.
Qed.
Lemma render_points : forall m t te p, In p (render_from t te m) -> In (p_time p, p_orig p) ((t, te) :: m).
Proof.
  induction m as [|(k & v) m IH]; intros t te p H; cbn [render_from] in H; [destruct H|]. destruct H as [<-|H]; [left; reflexivity|]. right. apply IH. exact H.
Qed.
Lemma render_times : forall m t te k, sorted ((t, te) :: m) -> has_key ((t, te) :: m) k -> k < maxt ((t, te) :: m) -> In k (map p_time (render_from t te m)).
Proof.
  induction m as [|(k0 & v) m IH]; intros t te k S H L.
  - destruct H as [<-|[]]. unfold maxt in L. cbn in L. lia.
  - rewrite maxt_cons in L. cbn [render_from map p_time In]. destruct H as [H|H]; [left; exact H|]. right. apply IH; [apply S|exact H|exact L].
Qed.
Lemma render_ok : forall ops, (exists t, added t ops) -> exists lo hi pts, render (i_points (build ops)) = Some pts
  /\ added lo ops /\ added hi ops /\ (forall k, added k ops -> lo <= k <= hi)
  /\ contiguous lo hi (segs pts) /\ duration (i_points (build ops)) = hi - lo
  /\ (forall p, In p pts -> last_added (p_time p) ops = Some (p_orig p))
  /\ (forall k, added k ops -> k < hi -> In k (map p_time pts)).
Proof.
  intros ops (t & H). pose proof (build_sorted ops) as S. apply added_key in H. assert (N : i_points (build ops) <> []) by (intros E; rewrite E in H; destruct H).
  exists (mint (i_points (build ops))), (maxt (i_points (build ops))).
  assert (G : forall k v, In (k, v) (i_points (build ops)) -> last_added k ops = Some v) by (intros k v I; rewrite <- get_build; apply get_in; assumption).
  assert (Q1 := mint_key _ N). assert (Q2 := maxt_key _ N). apply added_key in Q1. apply added_key in Q2.
  assert (Q3 : forall k, added k ops -> mint (i_points (build ops)) <= k <= maxt (i_points (build ops))).
  { intros k Hk. apply added_key in Hk. split; [apply mint_min; assumption|apply maxt_max; assumption]. }
  assert (Q4 : forall k, added k ops <-> has_key (i_points (build ops)) k) by (intros; apply added_key).
  destruct (i_points (build ops)) as [|(k & v) m]; [contradiction|]. exists (render_from k v m). split; [reflexivity|]. split; [exact Q1|]. split; [exact Q2|]. split; [exact Q3|].
  split; [apply render_contiguous; exact S|]. split; [reflexivity|]. split.
  - intros p Hp. apply G. apply render_points. exact Hp.
  - intros k' Hk L. apply render_times; [exact S|apply Q4; exact Hk|exact L].
Qed.

(** * rebase *)
Lemma put_last : forall {A} (m : zmap A) k v, Forall (fun p => fst p < k) m -> put k v m = m ++ [(k, v)].
Proof.
  induction m as [|(k' & v') m IH]; intros k v F; [reflexivity|]. pose proof (Forall_inv F) as L. cbn in L. cbn [put app].
  replace (k <? k') with false by lia. replace (k =? k') with false by lia. rewrite IH by exact (Forall_inv_tail F). reflexivity.
Qed.
Lemma rebase_map : forall {A} off (m : zmap A), sorted m -> rebase off m = map (fun p => (fst p + off, snd p)) m.
Proof.
  intros A off m S. unfold rebase.
  assert (G : forall (m acc : zmap A), sorted m -> (forall x y, In x acc -> In y m -> fst x < fst y + off) ->
    fold_left (fun acc p => put (fst p + off) (snd p) acc) m acc = acc ++ map (fun p => (fst p + off, snd p)) m).
  { induction m0 as [|(k & v) m0 IH]; intros acc S0 H; cbn [fold_left map]; [rewrite app_nil_r; reflexivity|]. destruct S0 as (F & S0). cbn [fst snd].
    rewrite put_last by (apply Forall_forall; intros x Hx; apply (H x (k, v) Hx); left; reflexivity).
    rewrite IH; [rewrite <- app_assoc; reflexivity|exact S0|]. intros x y Hx Hy. apply in_app_or in Hx. destruct Hx as [Hx|[<-|[]]]; [apply H; [exact Hx|right; exact Hy]|].
    eapply Forall_forall in F; [|exact Hy]. cbn in *. lia. }
  rewrite (G m [] S); [reflexivity|intros x y []].
Qed.
Lemma put_shift : forall {A} off k (v : A) m, map (fun p => (fst p + off, snd p)) (put k v m) = put (k + off) v (map (fun p => (fst p + off, snd p)) m).
Proof.
  induction m as [|(k' & v') m IH]; [reflexivity|]. cbn [put map fst snd].
  replace (k + off <? k' + off) with (k <? k') by lia. replace (k + off =? k' + off) with (k =? k') by lia.
  destruct (k <? k'); [reflexivity|]. destruct (k =? k'); [reflexivity|]. cbn [map fst snd]. rewrite IH. reflexivity.
Qed.
Lemma points_shift : forall off ops, i_points (build (map (shift_op off) ops)) = map (fun p => (fst p + off, snd p)) (i_points (build ops)).
Proof.
  intros off ops. induction ops as [|o ops IH] using rev_ind; [reflexivity|]. rewrite map_app. cbn [map]. rewrite !build_app.
  destruct o; cbn [shift_op index_step i_points]; rewrite ?IH; [symmetry; apply put_shift|reflexivity|symmetry; apply put_shift].
Qed.
Lemma insert_shift : forall off x s, map (fun y => y + off) (set_insert x s) = set_insert (x + off) (map (fun y => y + off) s).
Proof.
  induction s as [|z r IH]; [reflexivity|]. cbn [set_insert map]. replace (x + off <? z + off) with (x <? z) by lia. replace (x + off =? z + off) with (x =? z) by lia.
  destruct (x <? z); [reflexivity|]. destruct (x =? z); [reflexivity|]. cbn [map]. rewrite IH. reflexivity.
Qed.
Lemma files_shift : forall off ops, i_files (build (map (shift_op off) ops)) = map (fun y => y + off) (i_files (build ops)).
Proof.
  intros off ops. induction ops as [|o ops IH] using rev_ind; [reflexivity|]. rewrite map_app. cbn [map]. rewrite !build_app.
  destruct o; cbn [shift_op index_step i_files]; rewrite ?IH; [reflexivity|symmetry; apply insert_shift|reflexivity].
Qed.
Lemma insert_last : forall s x, Forall (fun y => y < x) s -> set_insert x s = s ++ [x].
Proof.
  induction s as [|z r IH]; intros x F; [reflexivity|]. pose proof (Forall_inv F) as L. cbn in L. cbn [set_insert app].
  replace (x <? z) with false by lia. replace (x =? z) with false by lia. rewrite IH by exact (Forall_inv_tail F). reflexivity.
Qed.
Lemma files_rebase : forall off s, StronglySorted Z.lt s -> fold_left (fun acc x => set_insert (x + off) acc) s [] = map (fun y => y + off) s.
Proof.
  intros off s S. assert (G : forall s acc, StronglySorted Z.lt s -> (forall x y, In x acc -> In y s -> x < y + off) ->
    fold_left (fun acc x => set_insert (x + off) acc) s acc = acc ++ map (fun y => y + off) s).
  { induction s0 as [|z r IH]; intros acc S0 H; cbn [fold_left map]; [rewrite app_nil_r; reflexivity|]. inversion S0 as [|? ? S' F]; subst.
    rewrite insert_last by (apply Forall_forall; intros x Hx; apply (H x z Hx); left; reflexivity). rewrite IH; [rewrite <- app_assoc; reflexivity|exact S'|].
    intros x y Hx Hy. apply in_app_or in Hx. destruct Hx as [Hx|[<-|[]]]; [apply H; [exact Hx|right; exact Hy]|]. eapply Forall_forall in F; [|exact Hy]. lia. }
  rewrite (G s [] S); [reflexivity|intros x y []].
Qed.
Lemma cross_shift_keys : forall off ops, map fst (i_cross (build (map (shift_op off) ops))) = map (fun p => fst p + off) (i_cross (build ops)).
Proof.
  intros off ops.
  assert (K : forall {A B} k (v : A) (w : B) m m', map fst m = map (fun p => fst p + off) m' -> map fst (put (k + off) v m) = map (fun p => fst p + off) (put k w m')).
  { induction m as [|(k1 & v1) m IHm]; intros [|(k2 & v2) m'] E; try discriminate; [reflexivity|]. cbn [map fst] in E. injection E as E1 E2. subst k1.
    cbn [put]. replace (k + off <? k2 + off) with (k <? k2) by lia. replace (k + off =? k2 + off) with (k =? k2) by lia.
    destruct (k <? k2); [cbn [map fst]; rewrite E2; reflexivity|]. destruct (k =? k2); [cbn [map fst]; rewrite E2; reflexivity|]. cbn [map fst]. rewrite (IHm m') by exact E2. reflexivity. }
  induction ops as [|o ops IH] using rev_ind; [reflexivity|]. rewrite map_app. cbn [map]. rewrite !build_app.
  destruct o; cbn [shift_op index_step i_cross]; [exact IH|exact IH|apply K; exact IH].
Qed.
Lemma rebase_ok : forall off ops, i_points (index_rebase off (build ops)) = i_points (build (map (shift_op off) ops))
  /\ i_files (index_rebase off (build ops)) = i_files (build (map (shift_op off) ops))
  /\ map fst (i_cross (index_rebase off (build ops))) = map fst (i_cross (build (map (shift_op off) ops))).
Proof.
  intros off ops. cbn [index_rebase i_points i_files i_cross]. rewrite points_shift, files_shift, cross_shift_keys.
  rewrite !rebase_map by (try apply build_sorted; apply build_cross_sorted). rewrite files_rebase by apply files_sorted. rewrite map_map. repeat split; reflexivity.
Qed.
Lemma last_added_shift : forall off ops t, last_added (t + off) (map (shift_op off) ops) = last_added t ops.
Proof.
  induction ops as [|o ops IH]; intros t; [reflexivity|]. cbn [map last_added]. rewrite IH. destruct (last_added t ops); [reflexivity|].
  destruct o; cbn [shift_op]; try replace (t0 + off =? t + off) with (t0 =? t) by lia; reflexivity.
Qed.
Lemma least_le : forall {A} (streams : list (zmap A)) a, fold_left (fun a m => if mint m <? a then mint m else a) streams a <= a /\ forall m, In m streams -> fold_left (fun a m => if mint m <? a then mint m else a) streams a <= mint m.
Proof.
  induction streams as [|x r IH]; intros a; cbn [fold_left]; [split; [lia|intros m []]|].
  destruct (IH (if mint x <? a then mint x else a)) as (P & Q). destruct (Z.ltb_spec (mint x) a); (split; [lia|]); intros m [<-|Hm]; try (apply Q; exact Hm); lia.
Qed.

(** * the Smooth Streaming text *)
Lemma read_c_text : forall first t d l, 0 <= t -> 0 <= d -> read_c (c_text first t d ++ l) = Some (d, if first then Some t else None, l).
Proof.
  assert (Q : ~ is_digit 34) by (unfold is_digit; lia).
  intros first t d l T D. unfold read_c, c_text. rewrite <- !app_assoc. rewrite strip_app. cbn [obind].
  destruct first.
  - rewrite <- !app_assoc. change (str """ t=""") with (34 :: str " t="""). cbn [app]. rewrite number_dec by assumption. cbn [obind].
    change (34 :: str " t=""" ++ dec t ++ str """></c>" ++ 13 :: 10 :: l) with ((34 :: str " t=""") ++ dec t ++ str """></c>" ++ 13 :: 10 :: l).
    rewrite strip_app. change (str """></c>") with (34 :: str "></c>"). cbn [app]. rewrite number_dec by assumption. cbn [obind].
    change (34 :: str "></c>" ++ 13 :: 10 :: l) with ((34 :: str "></c>" ++ [13; 10]) ++ l). rewrite strip_app. reflexivity.
  - cbn [app]. change (str """></c>") with (34 :: str "></c>"). cbn [app]. rewrite number_dec by assumption. cbn [obind].
    change (strip (str """ t=""") (34 :: str "></c>" ++ 13 :: 10 :: l)) with (@None (list Z)).
    change (34 :: str "></c>" ++ 13 :: 10 :: l) with ((34 :: str "></c>" ++ [13; 10]) ++ l). rewrite strip_app. reflexivity.
Qed.
Lemma c_text_length : forall b t d, (6 <= length (c_text b t d))%nat.
Proof. intros. unfold c_text. rewrite app_length. change (length (str "<c d=""")) with 6%nat. lia. Qed.
Lemma read_rest : forall pts e hi fuel, 0 <= e -> contiguous e hi (segs pts) -> (length (flat_map (fun q => c_text false (p_time q) (p_dur q)) pts) <= fuel)%nat ->
  read_chunks fuel e (flat_map (fun q => c_text false (p_time q) (p_dur q)) pts) = Some (segs pts).
Proof.
  induction pts as [|p pts IH]; intros e hi fuel E C L; [destruct fuel; reflexivity|]. cbn [flat_map] in *. cbn [segs map contiguous] in C. destruct C as (X0 & D & C). subst e.
  rewrite app_length in L. pose proof (c_text_length false (p_time p) (p_dur p)) as N. destruct fuel as [|fuel]; [lia|].
  destruct (c_text false (p_time p) (p_dur p) ++ flat_map (fun q => c_text false (p_time q) (p_dur q)) pts) as [|x r] eqn:X; [apply (f_equal (@length Z)) in X; rewrite app_length in X; cbn [length] in X; lia|].
  cbn [read_chunks]. rewrite <- X, read_c_text by (try exact E; lia). cbn [obind]. rewrite (IH (p_time p + p_dur p) hi); [reflexivity|lia|exact C|lia].
Qed.
Lemma read_chunks_ok : forall pts lo hi, 0 <= lo -> contiguous lo hi (segs pts) -> read_chunks (length (chunks_text pts)) 0 (chunks_text pts) = Some (segs pts).
Proof.
  intros [|p pts] lo hi L C; [reflexivity|]. cbn [segs map contiguous] in C. destruct C as (X0 & D & C). subst lo. cbn [chunks_text].
  set (T := flat_map _ pts). pose proof (c_text_length true (p_time p) (p_dur p)) as N.
  destruct (length (c_text true (p_time p) (p_dur p) ++ T)) as [|fuel] eqn:F; [rewrite app_length in F; lia|].
  destruct (c_text true (p_time p) (p_dur p) ++ T) as [|x r] eqn:X; [discriminate|]. cbn [read_chunks]. rewrite <- X, read_c_text by (try exact L; lia). cbn [obind].
  subst T. rewrite (read_rest pts _ hi); [reflexivity|lia|exact C|]. apply (f_equal (@length Z)) in X. rewrite app_length in X. lia.
Qed.
Lemma contiguous_ok : forall l a b, 0 <= a -> b < 2 ^ 64 -> contiguous a b l -> Forall pt_ok l /\ a <= b.
Proof.
  induction l as [|(t & d) r IH]; intros a b A B C; cbn [contiguous] in C; [subst; split; [constructor|lia]|]. destruct C as (-> & D & C).
  destruct (IH (a + d) b ltac:(lia) B C) as (F & L). split; [constructor; [unfold pt_ok; cbn [fst snd]; lia|exact F]|lia].
Qed.
Lemma contiguous_sum : forall l a b, contiguous a b l -> fold_right Z.add 0 (map snd l) = b - a.
Proof.
  induction l as [|(t & d) r IH]; intros a b C; cbn [contiguous] in C; [subst; cbn; lia|]. destruct C as (-> & D & C). cbn [map fold_right snd]. rewrite (IH _ _ C). lia.
Qed.

(** * paths *)
Lemma add_path_get : forall {A} (m : zmap A) s p k, sorted m -> sorted (add_path m s p) /\ add_path m s p <> []
  /\ (m <> [] -> get k (add_path m s p) = match get k m with Some v => Some v | None => if k =? s then Some p else None end).
Proof.
  intros A m s p k Sm. unfold add_path. set (m' := if _ && _ then put 0 p m else m). assert (S' : sorted m') by (subst m'; destruct (_ && _); [apply put_sorted; exact Sm|exact Sm]).
  assert (E' : m <> [] -> m' = m) by (subst m'; destruct m; [contradiction|reflexivity]).
  destruct (get s m') eqn:G.
  - split; [exact S'|]. split; [intros E; rewrite E in G; discriminate|]. intros N. rewrite E' in * by exact N. destruct (get k m) eqn:K; [reflexivity|]. destruct (Z.eqb_spec k s) as [->|]; [congruence|reflexivity].
  - split; [apply put_sorted; exact S'|]. split; [destruct m' as [|(k0 & v) r]; cbn [put]; [discriminate|]; destruct (s <? k0); [discriminate|]; destruct (s =? k0); discriminate|].
    intros N. rewrite E' in * by exact N. destruct (Z.eqb_spec k s) as [->|D]; [rewrite get_put_same, G; reflexivity|]. rewrite get_put_other by exact D. destruct (get k m); reflexivity.
Qed.
Lemma add_paths_fold : forall {A} (adds : list (Z * A)) m k, sorted m -> m <> [] ->
  sorted (fold_left (fun m a => add_path m (fst a) (snd a)) adds m) /\ fold_left (fun m a => add_path m (fst a) (snd a)) adds m <> []
  /\ get k (fold_left (fun m a => add_path m (fst a) (snd a)) adds m) = match get k m with Some v => Some v | None => get k adds end.
Proof.
  induction adds as [|(s & p) adds IH]; intros m k S N; cbn [fold_left]; [split; [exact S|split; [exact N|destruct (get k m); reflexivity]]|].
  cbn [fst snd]. destruct (add_path_get m s p k S) as (S1 & N1 & G). destruct (IH (add_path m s p) k S1 N1) as (S2 & N2 & G2). split; [exact S2|]. split; [exact N2|].
  rewrite G2, G by exact N. cbn [get]. destruct (get k m); [reflexivity|]. destruct (k =? s); reflexivity.
Qed.
Lemma add_paths_get : forall {A} (adds : list (Z * A)) k, adds <> [] -> sorted (add_paths adds) /\ add_paths adds <> [] /\ get k (add_paths adds) = get k (file_starts adds).
Proof.
  intros A [|(s & p) adds] k N; [contradiction|]. unfold add_paths. cbn [fold_left fst snd].
  destruct (add_path_get [] s p k I) as (S & N1 & _). destruct (add_paths_fold adds _ k S N1) as (S2 & N2 & G). split; [exact S2|]. split; [exact N2|]. rewrite G.
  unfold add_path, file_starts. cbn [andb]. destruct (Z.ltb_spec 0 s).
  - cbn [put get]. replace (s =? 0) with false by lia. cbn [put]. replace (s <? 0) with false by lia. replace (s =? 0) with false by lia. cbn [put get].
    destruct (k =? 0); [reflexivity|]. destruct (k =? s); reflexivity.
  - cbn [get put]. destruct (k =? s); reflexivity.
Qed.
