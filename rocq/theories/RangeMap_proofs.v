(** Lemmas on the sorted range table. *)
From Coq Require Import ZifyNat.
From Verif Require Import Util RangeMap_model.
Local Open Scope Z_scope.
Local Ltac Zify.zify_post_hook ::= Z.div_mod_to_equations.

Lemma search_ok : forall {A} (d : A) m k f, increasing d m -> (f < length m)%nat -> k <= key d m f -> (forall i, (i < f)%nat -> key d m i < k) ->
  forall fuel idx lower upper, (lower <= f <= upper)%nat -> (lower <= idx <= upper)%nat -> (upper < length m)%nat -> (upper - lower < fuel)%nat ->
  search d m k fuel idx lower upper = Some f.
Proof.
  intros A d m k f Inc Lf Kf Bf. induction fuel as [|fuel IH]; intros idx lower upper F I U Fu; [lia|]. cbn [search].
  assert (Before : forall i, (i < length m)%nat -> (key d m i < k <-> (i < f)%nat)).
  { intros i Hi. split; [|apply Bf]. intros H. destruct (Nat.lt_ge_cases i f) as [|G]; [assumption|]. exfalso.
    destruct (Nat.eq_dec i f) as [->|N]; [lia|]. pose proof (Inc f i ltac:(lia)). lia. }
  replace (idx <? length m)%nat with true by (symmetry; apply Nat.ltb_lt; lia). cbn [andb].
  assert (E1 : key d m idx <? k = (idx <? f)%nat).
  { pose proof (Before idx ltac:(lia)). destruct (Z.ltb_spec (key d m idx) k), (Nat.ltb_spec idx f); try reflexivity; lia. }
  assert (E2 : (0 <? idx)%nat && (k <=? key d m (idx - 1)) = (f <? idx)%nat).
  { destruct (Nat.ltb_spec 0 idx); cbn [andb].
    - pose proof (Before (idx - 1)%nat ltac:(lia)). destruct (Z.leb_spec k (key d m (idx - 1))), (Nat.ltb_spec f idx); try reflexivity; lia.
    - destruct (Nat.ltb_spec f idx); [lia|reflexivity]. }
  assert (C : ((0 <? idx)%nat && ((k <=? key d m (idx - 1)) || (key d m idx <? k))) || (key d m idx <? k) = negb (idx =? f)%nat).
  { rewrite Bool.andb_orb_distrib_r, E2, E1. destruct (Nat.ltb_spec 0 idx), (Nat.ltb_spec f idx), (Nat.ltb_spec idx f), (Nat.eqb_spec idx f); cbn; try reflexivity; lia. }
  rewrite C. destruct (Nat.eqb_spec idx f) as [->|N]; cbn [negb]; [reflexivity|]. rewrite E2, E1.
  destruct (Nat.ltb_spec f idx), (Nat.ltb_spec idx f); try lia.
  - apply IH; try lia; destruct (Nat.ltb_spec lower (idx - 1)); lia.
  - destruct (Nat.eqb_spec lower idx) as [->|N2].
    + apply IH; try lia; destruct (Nat.ltb_spec (idx + 1) upper); lia.
    + apply IH; try lia; destruct (Nat.ltb_spec idx upper); lia.
Qed.
(** the first entry not below [k] *)
Lemma first_not_below : forall {A} (d : A) m k, m <> [] -> k <= key d m (length m - 1) -> exists f, (f < length m)%nat /\ k <= key d m f /\ forall i, (i < f)%nat -> key d m i < k.
Proof.
  intros A d m k N L. assert (0 < length m)%nat by (destruct m; [contradiction|cbn; lia]).
  assert (G : forall n, (n < length m)%nat -> (exists f, (f <= n)%nat /\ k <= key d m f /\ forall i, (i < f)%nat -> key d m i < k) \/ (forall i, (i <= n)%nat -> key d m i < k)).
  { induction n as [|n IH]; intros Hn.
    - destruct (Z.lt_ge_cases (key d m 0) k); [right; intros i Hi; replace i with 0%nat by lia; assumption|left; exists 0%nat; split; [lia|split; [lia|intros; lia]]].
    - destruct (IH ltac:(lia)) as [(f & F1 & F2 & F3)|B]; [left; exists f; split; [lia|split; assumption]|].
      destruct (Z.lt_ge_cases (key d m (S n)) k); [right; intros i Hi; destruct (Nat.eq_dec i (S n)) as [->|]; [assumption|apply B; lia]|left; exists (S n); split; [lia|split; [lia|intros i Hi; apply B; lia]]]. }
  destruct (G (length m - 1)%nat ltac:(lia)) as [(f & F1 & F2 & F3)|B]; [exists f; split; [lia|split; assumption]|]. specialize (B (length m - 1)%nat ltac:(lia)). lia.
Qed.
Lemma rm_get_ok : forall {A} (d : A) m k, increasing d m -> m <> [] -> exists ret i, rm_get d m k = Some (ret, i) /\ (i < length m)%nat
  /\ ((ret = 1 /\ i = (length m - 1)%nat /\ key d m i < k) \/ (ret <> 1 /\ k <= key d m i /\ forall j, (j < i)%nat -> key d m j < k))
  /\ (ret = -1 <-> k < key d m 0) /\ (ret = 1 <-> key d m (length m - 1) < k).
Proof.
  intros A d m k Inc N. assert (L : (0 < length m)%nat) by (destruct m; [contradiction|cbn; lia]).
  assert (M : key d m 0 <= key d m (length m - 1)). { destruct (Nat.eq_dec (length m - 1) 0) as [->|]; [lia|]. pose proof (Inc 0%nat (length m - 1)%nat ltac:(lia)). lia. }
  unfold rm_get. destruct m as [|p m0]; [contradiction|]. set (m := p :: m0) in *.
  destruct (Z.ltb_spec k (key d m 0)).
  - exists (-1), 0%nat. split; [reflexivity|]. split; [lia|]. split; [right; split; [lia|split; [lia|intros; lia]]|]. lia.
  - destruct (Z.ltb_spec (key d m (length m - 1)) k).
    + exists 1, (length m - 1)%nat. split; [reflexivity|]. split; [lia|]. split; [left; repeat split; assumption|]. lia.
    + destruct (first_not_below d m k ltac:(discriminate) ltac:(lia)) as (f & F1 & F2 & F3).
      rewrite (search_ok d m k f Inc F1 F2 F3) by (try lia; destruct m0; cbn in *; lia). exists 0, f. split; [reflexivity|]. split; [exact F1|]. split; [right; split; [lia|split; assumption]|]. lia.
Qed.
