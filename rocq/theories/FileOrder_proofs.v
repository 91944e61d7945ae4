From Coq Require Import ZArith List Bool Lia Permutation Arith.
From Verif Require Import Util FileOrder_model.
Import ListNotations.
Local Open Scope Z_scope.

(** [Ok_ev] relates an event to the requests known. *)
Definition owns (A : list req) (e : event) : Prop :=
  exists r, In r A /\ rseq r = fst e /\ snd e = Done (rres r).

Lemma scan_None k l : scan k l = None <-> Forall (fun x => (k < rseq x)%nat) l.
Proof.
  induction l as [|x l IH]; cbn [scan]; [split; auto|].
  destruct (Nat.ltb_spec k (rseq x)).
  - split; intros H0; [constructor; [auto|apply IH; exact H0]|inversion H0; apply IH; auto].
  - split; [discriminate|]. intros H0. inversion H0; lia.
Qed.

Lemma scan_Some k l t : scan k l = Some t -> In t l /\ (rseq t <= k)%nat.
Proof.
  induction l as [|x l IH]; cbn [scan]; [discriminate|].
  destruct (Nat.ltb_spec k (rseq x)).
  - intros E. destruct (IH E). split; [right|]; auto.
  - intros [= <-]. split; [left|]; auto.
Qed.

Lemma remove_req_perm t l : In t l -> NoDup (map rseq l) -> Permutation l (t :: remove_req t l).
Proof.
  induction l as [|x l IH]; [contradiction|]. cbn [map]. intros [->|H] ND; inversion ND as [|? ? Hn ND']; subst.
  - unfold remove_req. cbn [filter]. rewrite Nat.eqb_refl. cbn [negb].
    assert (E : filter (fun x => negb (rseq x =? rseq t)%nat) l = l).
    { clear - Hn. induction l as [|y l IH]; [reflexivity|]. cbn [filter]. cbn [map In] in Hn.
      destruct (Nat.eqb_spec (rseq y) (rseq t)); [exfalso; apply Hn; auto|]. cbn [negb]. rewrite IH; auto. }
    rewrite E. reflexivity.
  - unfold remove_req in *. cbn [filter].
    destruct (Nat.eqb_spec (rseq x) (rseq t)) as [E|E].
    + exfalso. apply Hn. rewrite E. apply in_map, H.
    + cbn [negb]. etransitivity; [apply perm_skip, (IH H ND')|]. apply perm_swap.
Qed.

(** Key step: everything pending is at or beyond [served], no duplicates. *)
Lemma uv_file_cb_step fuel : forall k L r,
  (length L + 2 <= fuel)%nat -> NoDup (map rseq (r :: L)) ->
  Forall (fun x => rread x = true /\ (k <= rseq x)%nat) (r :: L) ->
  exists k' L' D, uv_file_cb fuel (mkfs k L) r = Some (mkfs k' L', D) /\
    (k <= k')%nat /\ map fst D = seq k (k' - k) /\
    Forall (fun x => rread x = true /\ (k' < rseq x)%nat) L' /\
    (exists Dr, Permutation (r :: L) (Dr ++ L') /\ map rseq Dr = seq k (k' - k)) /\
    (Forall (fun x => 0 <= rres x) (r :: L) -> Forall (owns (r :: L)) D).
Proof.
  induction fuel as [|fuel IH]; intros k L r Hf ND HF; [lia|].
  cbn [uv_file_cb]. unfold select. cbn [served fwd].
  assert (Hsel : (scan k (r :: L) = None /\ (k < rseq r)%nat) \/
    exists t l, (if Nat.ltb k (rseq r) && rread r then
      match scan k (r :: L) with None => None | Some t => Some (t, remove_req t (r :: L)) end
      else Some (r, L)) = Some (t, l) /\ rseq t = k /\ Permutation (r :: L) (t :: l)).
  { inversion HF as [|? ? [Hr Hk] HF']; subst. rewrite Hr, andb_true_r.
    destruct (Nat.ltb_spec k (rseq r)).
    - destruct (scan k (r :: L)) as [t|] eqn:E; [|left; auto]. right.
      exists t, (remove_req t (r :: L)). destruct (scan_Some _ _ _ E) as [Hin Hle].
      split; [reflexivity|]. split; [|apply remove_req_perm; auto].
      rewrite Forall_forall in HF. destruct (HF t Hin). lia.
    - right. exists r, L. split; [reflexivity|]. split; [lia|reflexivity]. }
  destruct Hsel as [[Hn Hlt]|(t & l & E & Ht & HP)].
  - assert (Hr : rread r = true) by (inversion HF as [|? ? [Hr _] _]; exact Hr).
    replace (Nat.ltb k (rseq r) && rread r) with true
      by (rewrite Hr, andb_true_r; symmetry; apply Nat.ltb_lt; exact Hlt).
    rewrite Hn. exists k, (r :: L), []. rewrite Nat.sub_diag. cbn [seq map].
    split; [reflexivity|]. split; [lia|]. split; [reflexivity|]. split.
    + apply scan_None in Hn. rewrite Forall_forall in *. intros x Hx. split; [apply HF, Hx|apply Hn, Hx].
    + split; [exists []; split; [reflexivity|reflexivity]|constructor].
  - rewrite E.
    assert (Hev : Forall (fun x => 0 <= rres x) (r :: L) ->
       owns (r :: L) (rseq t, if rres r <? 0 then Failed (rres r) else Done (rres t))).
    { intros Hp. exists t. split; [apply (Permutation_in t (Permutation_sym HP)); left; reflexivity|].
      split; [reflexivity|]. cbn [snd]. inversion Hp; subst. destruct (Z.ltb_spec (rres r) 0); [lia|reflexivity]. }
    assert (HND' : NoDup (map rseq (t :: l))) by (apply (Permutation_NoDup (Permutation_map rseq HP)), ND).
    assert (HF' : Forall (fun x => rread x = true /\ (S k <= rseq x)%nat) l).
    { rewrite Forall_forall in *. intros x Hx.
      destruct (HF x) as [A B]; [apply (Permutation_in x (Permutation_sym HP)); right; exact Hx|].
      split; [exact A|]. inversion HND' as [|? ? Hn _]; subst.
      assert (rseq x <> rseq t) by (intros Ex; apply Hn; rewrite <- Ex; apply in_map, Hx). lia. }
    pose proof (Permutation_length HP) as HL. cbn [length] in HL.
    destruct l as [|h l].
    + exists (S k), [], [(rseq t, if rres r <? 0 then Failed (rres r) else Done (rres t))].
      replace (S k - k)%nat with 1%nat by lia. cbn [seq map fst]. rewrite Ht.
      split; [reflexivity|]. split; [lia|]. split; [reflexivity|]. split; [constructor|].
      split; [exists [t]; split; [rewrite app_nil_r; exact HP|cbn; rewrite Ht; reflexivity]|].
      intros Hp. constructor; [|constructor]. rewrite <- Ht. auto.
    + cbn [length] in HL. inversion HND' as [|? ? Hn HND2]; subst.
      destruct (IH (S (rseq t)) l h ltac:(lia) HND2 HF') as (k' & L' & D & E2 & Hk & HD & HL' & (Dr & HPD & HDr) & Hown).
      rewrite E2. exists k', L', ((rseq t, if rres r <? 0 then Failed (rres r) else Done (rres t)) :: D).
      split; [reflexivity|]. split; [lia|].
      replace (k' - rseq t)%nat with (S (k' - S (rseq t))) by lia. cbn [seq map fst]. rewrite HD.
      split; [reflexivity|]. split; [exact HL'|].
      split.
      * exists (t :: Dr). cbn [map app]. rewrite HDr. split; [|reflexivity].
        etransitivity; [exact HP|]. apply perm_skip. exact HPD.
      * intros Hp. constructor; [auto|].
        assert (Hp' : Forall (fun x => 0 <= rres x) (h :: l)).
        { rewrite Forall_forall in *. intros x Hx. apply Hp, (Permutation_in x (Permutation_sym HP)). right; exact Hx. }
        specialize (Hown Hp'). rewrite Forall_forall in *. intros e He. destruct (Hown e He) as (q & Hq & Hq').
        exists q. split; [|exact Hq']. apply (Permutation_in q (Permutation_sym HP)). right; exact Hq.
Qed.

(** Whole histories. *)
Definition Inv (A : list req) (s : fstate) : Prop :=
  Forall (fun x => rread x = true /\ (served s < rseq x)%nat) (fwd s) /\
  exists Dr, Permutation A (Dr ++ fwd s) /\ map rseq Dr = seq 0 (served s).

Lemma run_completions l : forall A s, Inv A s -> NoDup (map rseq (A ++ l)) ->
  Forall (fun x => rread x = true) l ->
  exists s' D, completions s l = Some (s', D) /\ Inv (A ++ l) s' /\
    map fst D = seq (served s) (served s' - served s) /\ (served s <= served s')%nat /\
    (Forall (fun x => 0 <= rres x) (A ++ l) -> Forall (owns (A ++ l)) D).
Proof.
  induction l as [|r l IH]; intros A s HI ND HR.
  - exists s, []. cbn [completions]. rewrite app_nil_r, Nat.sub_diag. repeat split; auto; apply HI.
  - destruct HI as (HF & Dr & HP & HDr). inversion HR as [|? ? Hr HR']; subst.
    assert (HA1 : NoDup (map rseq (A ++ [r]))).
    { replace (A ++ r :: l) with ((A ++ [r]) ++ l) in ND by (rewrite <- app_assoc; reflexivity).
      rewrite map_app in ND. apply NoDup_app_l in ND. exact ND. }
    assert (HPr : Permutation (A ++ [r]) (Dr ++ r :: fwd s)).
    { rewrite HP, <- app_assoc. apply Permutation_app_head. symmetry. apply Permutation_cons_append. }
    assert (HND1 : NoDup (map rseq (Dr ++ r :: fwd s))) by (apply (Permutation_NoDup (Permutation_map rseq HPr)), HA1).
    assert (Hrk : (served s <= rseq r)%nat).
    { destruct (Nat.le_gt_cases (served s) (rseq r)) as [|Hlt]; [assumption|exfalso].
      rewrite map_app in HND1. cbn [map] in HND1. apply NoDup_remove_2 in HND1. apply HND1.
      apply in_or_app. left. rewrite HDr. apply in_seq. lia. }
    unfold completions; fold completions. unfold complete.
    destruct s as [k L]. cbn [served fwd] in *.
    destruct (uv_file_cb_step (2 + length L) k L r) as (k' & L' & D & E & Hk & HD & HL' & (Dr2 & HP2 & HDr2) & Hown).
    + lia.
    + rewrite map_app in HND1. apply NoDup_app_r in HND1. exact HND1.
    + constructor; [auto|]. rewrite Forall_forall in *. intros x Hx. destruct (HF x Hx). split; [auto|lia].
    + rewrite E.
      assert (HI' : Inv (A ++ [r]) (mkfs k' L')).
      { split; cbn [served fwd]; [exact HL'|]. exists (Dr ++ Dr2). split.
        - etransitivity; [exact HPr|]. rewrite <- app_assoc. apply Permutation_app_head. exact HP2.
        - rewrite map_app, HDr, HDr2. change (seq k (k' - k)) with (seq (0 + k) (k' - k)).
          rewrite <- seq_app. f_equal. lia. }
      replace (A ++ r :: l) with ((A ++ [r]) ++ l) in * by (rewrite <- app_assoc; reflexivity).
      destruct (IH _ _ HI' ND HR') as (s2 & D2 & E2 & HI2 & HD2 & Hk2 & Hown2). cbn [served] in *.
      rewrite E2. exists s2, (D ++ D2). split; [reflexivity|]. split; [exact HI2|].
      split; [|split; [lia|]].
      * rewrite map_app, HD, HD2. replace k' with (k + (k' - k))%nat at 2 by lia.
        rewrite <- seq_app. f_equal. lia.
      * intros Hp. apply Forall_app. split; [|auto].
        assert (Hp1 : Forall (fun x => 0 <= rres x) (r :: L)).
        { rewrite Forall_forall in *. intros x Hx. apply Hp. apply in_or_app. left.
          apply (Permutation_in x (Permutation_sym HPr)). apply in_or_app. right. exact Hx. }
        specialize (Hown Hp1). rewrite Forall_forall in *. intros e He. destruct (Hown e He) as (q & Hq & Hq').
        exists q. split; [|exact Hq']. apply in_or_app. left.
        apply (Permutation_in q (Permutation_sym HPr)). apply in_or_app. right. exact Hq.
Qed.

Lemma nodup_seq_eq l : NoDup (map rseq l) -> forall a b, In a l -> In b l -> rseq a = rseq b -> a = b.
Proof.
  induction l as [|x l IH]; [contradiction|]. cbn [map]. intros ND a b [->|Ha] [->|Hb] E; inversion ND as [|? ? Hn ND']; subst; auto.
  - exfalso. apply Hn. rewrite E. apply in_map, Hb.
  - exfalso. apply Hn. rewrite <- E. apply in_map, Ha.
Qed.

Lemma order_prefix l : NoDup (map rseq l) -> Forall (fun x => rread x = true) l ->
  exists s D k, completions fresh l = Some (s, D) /\ served s = k /\
    map fst D = seq 0 k /\ (forall i, (i < k)%nat -> In i (map rseq l)) /\ ~ In k (map rseq l) /\
    (Forall (fun x => 0 <= rres x) l ->
       forall i note, In (i, note) D -> exists r, In r l /\ rseq r = i /\ note = Done (rres r)).
Proof.
  intros ND HR.
  destruct (run_completions l [] fresh) as (s & D & E & (HF & Dr & HP & HDr) & HD & _ & Hown); cbn [app] in *; auto.
  - split; [constructor|]. exists []. split; reflexivity.
  - cbn [served fresh] in HD. rewrite Nat.sub_0_r in HD.
    exists s, D, (served s). repeat (split; [solve [auto]|]). split; [|split].
    + intros i Hi. apply (Permutation_in i (Permutation_sym (Permutation_map rseq HP))).
      rewrite map_app. apply in_or_app. left. rewrite HDr. apply in_seq. lia.
    + intros Hin. apply (Permutation_in _ (Permutation_map rseq HP)) in Hin.
      rewrite map_app, HDr in Hin. apply in_app_or in Hin. destruct Hin as [Hin|Hin].
      * apply in_seq in Hin. lia.
      * apply in_map_iff in Hin. destruct Hin as (x & Ex & Hx). rewrite Forall_forall in HF. destruct (HF x Hx). lia.
    + intros Hp i nt Hi. specialize (Hown Hp). rewrite Forall_forall in Hown.
      destruct (Hown _ Hi) as (r & Hr & E1 & E2). exists r. auto.
Qed.

Lemma events_full n res l :
  Permutation l (map (fun i => mkreq i true (res i)) (seq 0 n)) -> (forall i, (i < n)%nat -> 0 <= res i) ->
  exists s, completions fresh l = Some (s, map (fun i => (i, Done (res i))) (seq 0 n)) /\ outstanding n s = 0%nat.
Proof.
  intros HP Hres.
  assert (Hm : map rseq (map (fun i => mkreq i true (res i)) (seq 0 n)) = seq 0 n).
  { rewrite map_map. cbn [rseq]. apply map_id. }
  assert (HPs : Permutation (map rseq l) (seq 0 n)) by (rewrite <- Hm; apply Permutation_map, HP).
  assert (ND : NoDup (map rseq l)) by (apply (Permutation_NoDup (Permutation_sym HPs)), seq_NoDup).
  assert (Hall : forall x, In x l -> rread x = true /\ rres x = res (rseq x) /\ (rseq x < n)%nat).
  { intros x Hx. apply (Permutation_in x HP) in Hx. apply in_map_iff in Hx. destruct Hx as (i & <- & Hi).
    apply in_seq in Hi. cbn. repeat split; lia. }
  destruct (order_prefix l ND) as (s & D & k & E & Hs & HD & Hall' & Hk & Hval).
  { rewrite Forall_forall. intros x Hx. apply Hall, Hx. }
  assert (Hkn : k = n).
  { destruct (Nat.lt_trichotomy k n) as [Hlt|[->|Hgt]]; auto.
    - exfalso. apply Hk. apply (Permutation_in k (Permutation_sym HPs)). apply in_seq. lia.
    - specialize (Hall' n Hgt). apply (Permutation_in n HPs) in Hall'. apply in_seq in Hall'. lia. }
  subst k. exists s. split; [|unfold outstanding; lia]. rewrite E. f_equal. f_equal.
  specialize (Hval ltac:(rewrite Forall_forall; intros x Hx; destruct (Hall x Hx) as (_ & -> & ?); auto)).
  assert (G : forall n0 st D, map fst D = seq st n0 ->
    (forall i nt, In (i, nt) D -> exists r, In r l /\ rseq r = i /\ nt = Done (rres r)) ->
    D = map (fun i => (i, Done (res i))) (seq st n0)).
  { induction n0 as [|n0 IH]; intros st [|[i nt] D'] HD' Hv; cbn [seq map] in HD' |- *; try discriminate; auto.
    injection HD' as -> HD'. f_equal; [|apply IH; auto; intros; apply Hv; right; auto].
    destruct (Hv st nt (or_introl eq_refl)) as (r & Hr & Er & ->). destruct (Hall r Hr) as (_ & -> & _). rewrite Er. reflexivity. }
  apply G; auto. congruence.
Qed.

(** In-order completions: every request gets its own outcome, errors included. *)
Lemma in_order_step k r : rseq r = k -> uv_file_cb 2 (mkfs k []) r =
  Some (mkfs (S k) [], [(k, if rres r <? 0 then Failed (rres r) else Done (rres r))]).
Proof.
  intros <-. cbn [uv_file_cb]. unfold select. cbn [served fwd]. rewrite Nat.ltb_irrefl. cbn [andb]. reflexivity.
Qed.
Lemma in_order n res rd : forall k, completions (mkfs k []) (map (fun i => mkreq i (rd i) (res i)) (seq k n)) =
  Some (mkfs (k + n) [], map (fun i => (i, if res i <? 0 then Failed (res i) else Done (res i))) (seq k n)).
Proof.
  induction n as [|n IH]; intros k; cbn [seq map completions].
  - rewrite Nat.add_0_r. reflexivity.
  - unfold complete. cbn [fwd length Nat.add]. rewrite in_order_step by reflexivity. rewrite IH.
    cbn [rres app]. rewrite <- Nat.add_succ_comm. reflexivity.
Qed.
