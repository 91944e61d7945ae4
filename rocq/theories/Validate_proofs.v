(** Proofs about Validate_model. *)
From Coq Require Import List ZArith Lia Bool ZifyBool ZifyNat.
From Verif Require Import Util Validate_model.
Import ListNotations.
Local Open Scope Z_scope.

Lemma assign_length : forall l i v, (Z.to_nat i < length l)%nat -> length (assign l i v) = length l.
Proof. intros l i v H. unfold assign. rewrite app_length. cbn [length]. rewrite firstn_length, skipn_length. lia. Qed.
Lemma assign_same : forall l i v, 0 <= i -> (Z.to_nat i < length l)%nat -> index (assign l i v) i = Some v.
Proof.
  intros l i v P H. unfold index, assign. replace (i <? 0) with false by lia.
  rewrite nth_error_app2 by (rewrite firstn_length; lia). rewrite firstn_length. replace (Z.to_nat i - Nat.min (Z.to_nat i) (length l))%nat with 0%nat by lia. reflexivity.
Qed.
Lemma nth_error_skipn' : forall (A : Type) n (l : list A) k, nth_error (skipn n l) k = nth_error l (n + k).
Proof. intros A n. induction n; intros l k; [reflexivity|]. destruct l; [destruct k; reflexivity|]. cbn. apply IHn. Qed.
Lemma nth_error_firstn' : forall (A : Type) n (l : list A) k, (k < n)%nat -> nth_error (firstn n l) k = nth_error l k.
Proof. intros A n. induction n; intros l k H; [lia|]. destruct l; [destruct k; reflexivity|]. destruct k; [reflexivity|]. cbn. apply IHn. lia. Qed.
Lemma assign_other : forall l i j v, 0 <= i -> i <> j -> (Z.to_nat i < length l)%nat -> index (assign l i v) j = index l j.
Proof.
  intros l i j v P N H. unfold index, assign. destruct (j <? 0) eqn:J; [reflexivity|].
  destruct (Z_lt_dec j i).
  - rewrite nth_error_app1 by (rewrite firstn_length; lia). apply nth_error_firstn'. lia.
  - rewrite nth_error_app2 by (rewrite firstn_length; lia). rewrite firstn_length.
    replace (Z.to_nat j - Nat.min (Z.to_nat i) (length l))%nat with (S (Z.to_nat j - Z.to_nat i - 1))%nat by lia.
    cbn [nth_error]. rewrite nth_error_skipn'. f_equal. lia.
Qed.

Definition value (o : option Z) : Z := match o with Some a => a | None => NONE end.
(** What the two arrays hold after these calls *)
Definition holds (cs : list call) (v : validation) : Prop :=
  length (v_last v) = STREAM_MAX /\ length (v_total v) = STREAM_MAX /\
  forall s, 0 <= s < 16 -> index (v_last v) s = Some (value (last_used s cs)) /\ index (v_total v) s = Some (value (last_total s cs)).
Lemma index_repeat : forall n s, 0 <= s < Z.of_nat n -> index (repeat NONE n) s = Some NONE.
Proof.
  intros n s H. unfold index. replace (s <? 0) with false by lia. destruct (nth_error (repeat NONE n) (Z.to_nat s)) eqn:E.
  - apply nth_error_In in E. apply repeat_spec in E. congruence.
  - apply nth_error_None in E. rewrite repeat_length in E. lia.
Qed.
Lemma holds0 : holds [] validation0.
Proof. split; [reflexivity|]. split; [reflexivity|]. intros s H. split; apply index_repeat; exact H. Qed.
Lemma last_used_snoc : forall s cs c, last_used s (cs ++ [c]) = match c with Using s' n => if s' =? s then Some n else last_used s cs | _ => last_used s cs end.
Proof. intros s cs c. unfold last_used. rewrite fold_left_app. reflexivity. Qed.
Lemma last_total_snoc : forall s cs c, last_total s (cs ++ [c]) = match c with Finished s' n => if s' =? s then Some n else last_total s cs | _ => last_total s cs end.
Proof. intros s cs c. unfold last_total. rewrite fold_left_app. reflexivity. Qed.
Lemma last_used_range : forall cs s a, Forall possible cs -> last_used s cs = Some a -> 0 <= a < 2 ^ 63.
Proof.
  intros cs. induction cs as [|c cs IH] using rev_ind; intros s a F E; [discriminate|]. apply Forall_app in F as [F C]. pose proof (Forall_inv C) as H1.
  rewrite last_used_snoc in E. destruct c as [s' n|s' t]; [|eauto]. destruct (s' =? s); [|eauto]. injection E as <-. cbn in H1. lia.
Qed.
Lemma last_total_range : forall cs s a, Forall possible cs -> last_total s cs = Some a -> 0 <= a < 2 ^ 63.
Proof.
  intros cs. induction cs as [|c cs IH] using rev_ind; intros s a F E; [discriminate|]. apply Forall_app in F as [F C]. pose proof (Forall_inv C) as H1.
  rewrite last_total_snoc in E. destruct c as [s' n|s' t]; [eauto|]. destruct (s' =? s); [|eauto]. injection E as <-. cbn in H1. lia.
Qed.
(** What one call reports *)
Definition reports (p : list call) (c : call) : list report :=
  match c with
  | Finished _ _ => []
  | Using s b =>
    match last_used s p with
    | None => []
    | Some a => if b =? 0 then (match last_total s p with Some t => if t =? a + 1 then [] else [MissingAtTheEnd t a] | None => [MissingAtTheEnd NONE a] end)
                else if b =? a + 1 then [] else [MissingInTheMiddle (b - 1) a]
    end
  end.
Lemma step_holds : forall p v c, Forall possible p -> possible c -> holds p v -> exists w, step v c = Some (w, reports p c) /\ holds (p ++ [c]) w.
Proof.
  intros p v c FP PC (L1 & L2 & H). unfold STREAM_MAX in *. destruct c as [s b|s t]; cbn [step possible] in *.
  - destruct PC as [S1 B]. destruct (H s S1) as [E1 E2]. unfold using_sample. rewrite E1, E2.
    eexists (mkV (assign (v_last v) s b) (v_total v)). split.
    + f_equal. f_equal. cbn [reports]. destruct (last_used s p) as [a|] eqn:A; cbn [value].
      * pose proof (last_used_range _ _ _ FP A) as RA. change (2 ^ 63) with 9223372036854775808 in *. unfold NONE. change (2 ^ 64) with 18446744073709551616.
        replace (a =? 18446744073709551616 - 1) with false by lia.
        destruct (b =? 0) eqn:Z0.
        -- destruct (last_total s p) as [t|] eqn:T; cbn [value].
           ++ pose proof (last_total_range _ _ _ FP T) as RT. change (2 ^ 63) with 9223372036854775808 in *. destruct (Z.eq_dec t 0) as [->|NZ].
              ** change ((0 - 1) mod 18446744073709551616) with 18446744073709551615. replace (18446744073709551615 =? a) with false by lia. replace (0 =? a + 1) with false by lia. reflexivity.
              ** rewrite Z.mod_small by lia. destruct (t =? a + 1) eqn:Q; [replace (t - 1 =? a) with true by lia|replace (t - 1 =? a) with false by lia]; reflexivity.
           ++ unfold NONE. change ((2 ^ 64 - 1 - 1) mod 18446744073709551616) with 18446744073709551614. replace (18446744073709551614 =? a) with false by lia. reflexivity.
        -- rewrite Z.mod_small by lia. destruct (b =? a + 1) eqn:Q; [replace (b - 1 =? a) with true by lia|replace (b - 1 =? a) with false by lia]; reflexivity.
      * unfold NONE. rewrite Z.eqb_refl. reflexivity.
    + split; [cbn [v_last]; rewrite assign_length; [exact L1|rewrite L1; lia]|]. split; [exact L2|]. intros s' S'. cbn [v_last v_total]. rewrite last_used_snoc, last_total_snoc. split; [|apply H; exact S'].
      destruct (s =? s') eqn:Q.
      * assert (s = s') by lia. subst s'. apply assign_same; [lia|rewrite L1; lia].
      * rewrite assign_other; [apply H; exact S'|lia|lia|rewrite L1; lia].
  - destruct PC as [S1 B]. destruct (H s S1) as [E1 E2]. unfold end_sample. rewrite E2.
    eexists (mkV (v_last v) (assign (v_total v) s t)). split; [reflexivity|].
    split; [exact L1|]. split; [cbn [v_total]; rewrite assign_length; [exact L2|rewrite L2; lia]|]. intros s' S'. cbn [v_last v_total]. rewrite last_used_snoc, last_total_snoc. split; [apply H; exact S'|].
    destruct (s =? s') eqn:Q.
    + assert (s = s') by lia. subst s'. apply assign_same; [lia|rewrite L2; lia].
    + rewrite assign_other; [apply H; exact S'|lia|lia|rewrite L2; lia].
Qed.
Lemma run_app : forall a b v, run v (a ++ b) = match run v a with None => None | Some (w, out) => match run w b with None => None | Some (x, more) => Some (x, out ++ more) end end.
Proof.
  intros a. induction a as [|c a IH]; intros b v; cbn [run app].
  - destruct (run v b) as [[x more]|]; reflexivity.
  - destruct (step v c) as [[w out]|]; [|reflexivity]. rewrite IH. destruct (run w a) as [[x m]|]; [|reflexivity]. destruct (run x b) as [[y m']|]; [|reflexivity]. rewrite app_assoc. reflexivity.
Qed.
Lemma run_holds : forall cs, Forall possible cs -> exists v out, run validation0 cs = Some (v, out) /\ holds cs v.
Proof.
  intros cs. induction cs as [|c cs IH] using rev_ind; intros F.
  - exists validation0, []. split; [reflexivity|exact holds0].
  - apply Forall_app in F as [F C]. pose proof (Forall_inv C) as H1. destruct (IH F) as (v & out & R & H). destruct (step_holds _ _ _ F H1 H) as (w & ST & HW).
    exists w, (out ++ reports cs c). split; [|exact HW]. rewrite run_app, R. cbn [run]. rewrite ST. rewrite app_nil_r. reflexivity.
Qed.
Lemma validate_snoc : forall p c, Forall possible p -> possible c -> exists out, validate p = Some out /\ validate (p ++ [c]) = Some (out ++ reports p c).
Proof.
  intros p c F C. destruct (run_holds p F) as (v & out & R & H). destruct (step_holds _ _ _ F C H) as (w & ST & HW). exists out. unfold validate. rewrite run_app, R. cbn [run]. rewrite ST, app_nil_r. split; reflexivity.
Qed.
Lemma validate_some : forall p, Forall possible p -> exists out, validate p = Some out.
Proof. intros p F. destruct (run_holds p F) as (v & out & R & H). exists out. unfold validate. rewrite R. reflexivity. Qed.
Lemma reports_nil : forall p s b, Forall possible p -> 0 <= b -> (reports p (Using s b) = [] <-> forall a, last_used s p = Some a -> follows a b (last_total s p)).
Proof.
  intros p s b F B. cbn [reports]. unfold follows. destruct (last_used s p) as [a|] eqn:A; [|split; [discriminate|reflexivity]].
  pose proof (last_used_range _ _ _ F A). destruct (b =? 0) eqn:Q.
  - destruct (last_total s p) as [t|].
    + destruct (t =? a + 1) eqn:Q2; split; try discriminate; try reflexivity.
      * intros _ a' E. injection E as <-. right. split; [lia|]. f_equal. lia.
      * intros K. destruct (K a eq_refl) as [?|[_ ?]]; [lia|]. injection H0 as ->. lia.
    + split; [discriminate|]. intros K. destruct (K a eq_refl) as [?|[_ ?]]; [lia|discriminate].
  - destruct (b =? a + 1) eqn:Q2; split; try discriminate; try reflexivity.
    + intros _ a' E. injection E as <-. left. lia.
    + intros K. destruct (K a eq_refl) as [?|[? _]]; lia.
Qed.
Lemma silent_iff : forall cs, Forall possible cs ->
  (validate cs = Some [] <-> forall p s b q a, cs = p ++ Using s b :: q -> last_used s p = Some a -> follows a b (last_total s p)).
Proof.
  intros cs. induction cs as [|c cs IH] using rev_ind; intros F.
  - split; [|reflexivity]. intros _ p s b q a E. destruct p; discriminate.
  - apply Forall_app in F as [F C]. pose proof (Forall_inv C) as H1. destruct (validate_snoc _ _ F H1) as (out & V1 & V2). specialize (IH F). rewrite V2. rewrite V1 in IH. split.
    + intros E. assert (E' : out ++ reports cs c = []) by congruence. apply app_eq_nil in E' as [-> R]. destruct IH as [IH _]. specialize (IH eq_refl).
      intros p s b q a E1 LU. destruct q as [|c' q] using rev_ind.
      * apply app_inj_tail in E1 as [-> ->]. cbn in H1. apply (reports_nil p s b F); [lia|exact R|exact LU].
      * clear IHq. rewrite app_comm_cons, app_assoc in E1. apply app_inj_tail in E1 as [-> ->]. eapply IH; [reflexivity|exact LU].
    + intros K. assert (out = []). { assert (Some out = Some []) as E; [|congruence]. apply IH. intros p s b q a E LU. apply (K p s b (q ++ [c])); [rewrite E, <- app_assoc; reflexivity|exact LU]. }
      subst out. cbn [app]. f_equal. destruct c as [s b|s t]; [|reflexivity]. cbn in H1. apply (reports_nil cs s b F); [lia|]. intros a LU. apply (K cs s b [] a); [reflexivity|exact LU].
Qed.
Lemma of_stream_app : forall s a b, of_stream s (a ++ b) = of_stream s a ++ of_stream s b.
Proof. intros. apply filter_app. Qed.
Lemma last_used_of_stream : forall s cs, last_used s (of_stream s cs) = last_used s cs.
Proof.
  intros s cs. induction cs as [|c cs IH] using rev_ind; [reflexivity|]. rewrite of_stream_app, last_used_snoc.
  destruct c as [s' n|s' t]; cbn [of_stream filter]; destruct (s' =? s) eqn:Q; rewrite ?last_used_snoc, ?app_nil_r, ?Q; auto.
Qed.
Lemma last_total_of_stream : forall s cs, last_total s (of_stream s cs) = last_total s cs.
Proof.
  intros s cs. induction cs as [|c cs IH] using rev_ind; [reflexivity|]. rewrite of_stream_app, last_total_snoc.
  destruct c as [s' n|s' t]; cbn [of_stream filter]; destruct (s' =? s) eqn:Q; rewrite ?last_total_snoc, ?app_nil_r, ?Q; auto.
Qed.
Lemma filter_split : forall (A : Type) (f : A -> bool) l p x q, filter f l = p ++ x :: q -> exists p' q', l = p' ++ x :: q' /\ filter f p' = p /\ filter f q' = q.
Proof.
  intros A f l. induction l as [|y l IH]; intros p x q E; [destruct p; discriminate|]. cbn in E. destruct (f y) eqn:Y.
  - destruct p as [|z p].
    + injection E as -> E. exists [], l. auto.
    + injection E as -> E. destruct (IH _ _ _ E) as (p' & q' & -> & E1 & E2). exists (z :: p'), q'. split; [reflexivity|]. split; [cbn; rewrite Y, E1; reflexivity|exact E2].
  - destruct (IH _ _ _ E) as (p' & q' & -> & E1 & E2). exists (y :: p'), q'. split; [reflexivity|]. split; [cbn; rewrite Y; exact E1|exact E2].
Qed.
Lemma of_stream_possible : forall s cs, Forall possible cs -> Forall possible (of_stream s cs).
Proof. intros s cs F. apply Forall_forall. intros c I0. apply filter_In in I0 as [I0 _]. rewrite Forall_forall in F. auto. Qed.
Lemma streams_iff : forall cs, Forall possible cs -> (validate cs = Some [] <-> forall s, 0 <= s < 16 -> validate (of_stream s cs) = Some []).
Proof.
  intros cs F. split.
  - intros V s S0. apply silent_iff; [apply of_stream_possible; exact F|]. intros p s' b q a E LU.
    pose proof E as E'. apply filter_split in E' as (p' & q' & EC & <- & EQ).
    assert (s' = s). { assert (I0 : In (Using s' b) (of_stream s cs)) by (rewrite E; apply in_elt). apply filter_In in I0 as [_ Q]. lia. } subst s'.
    change (filter _ p') with (of_stream s p') in *. rewrite last_used_of_stream in LU. rewrite last_total_of_stream. pose proof (proj1 (silent_iff cs F) V) as K. apply (K p' s b q' a EC LU).
  - intros K. apply silent_iff; [exact F|]. intros p s b q a E LU.
    assert (P : possible (Using s b)) by (rewrite Forall_forall in F; apply F; rewrite E; apply in_elt). cbn in P. destruct P as [S0 B].
    specialize (K s S0). rewrite silent_iff in K by (apply of_stream_possible; exact F).
    rewrite <- last_total_of_stream. apply (K (of_stream s p) s b (of_stream s q) a); [|rewrite last_used_of_stream; exact LU].
    rewrite E, of_stream_app. f_equal. cbn [of_stream filter]. rewrite Z.eqb_refl. reflexivity.
Qed.

(** Files cut without loss *)
Definition track (cs : list call) (s : Z) (a : option Z) (t : option Z) : Prop := last_used s cs = a /\ last_total s cs = t.
Lemma using_run : forall n k p s, Forall possible p -> 0 <= s < 16 -> Z.of_nat (k + n) < 2 ^ 63 -> validate p = Some [] ->
  (last_used s p = None \/ last_used s p = Some (Z.of_nat k - 1) \/ (k = 0%nat /\ exists a, last_used s p = Some a /\ last_total s p = Some (a + 1))) ->
  let cs := p ++ map (Using s) (map Z.of_nat (seq k n)) in
  Forall possible cs /\ validate cs = Some [] /\ last_total s cs = last_total s p /\ last_used s cs = match n with 0%nat => last_used s p | S _ => Some (Z.of_nat (k + n) - 1) end.
Proof.
  intros n. induction n as [|n IH]; intros k p s F S0 K V L; cbv zeta.
  - cbn [seq map]. rewrite app_nil_r. auto.
  - cbn [seq map]. replace (p ++ Using s (Z.of_nat k) :: map (Using s) (map Z.of_nat (seq (S k) n))) with ((p ++ [Using s (Z.of_nat k)]) ++ map (Using s) (map Z.of_nat (seq (S k) n))) by (rewrite <- app_assoc; reflexivity).
    assert (P : possible (Using s (Z.of_nat k))) by (cbn; lia).
    destruct (validate_snoc p _ F P) as (out & V1 & V2). rewrite V in V1. injection V1 as <-. cbn [app] in V2.
    assert (R : reports p (Using s (Z.of_nat k)) = []).
    { apply reports_nil; [exact F|lia|]. intros a A. unfold follows. destruct L as [L|[L|[L1 (a' & L2 & L3)]]]; rewrite A in *; [discriminate| |].
      - injection L as ->. left. lia.
      - injection L2 as <-. right. split; [lia|exact L3]. }
    rewrite R in V2.
    destruct (IH (S k) (p ++ [Using s (Z.of_nat k)]) s) as (A1 & A2 & A3 & A4); [apply Forall_app; auto|exact S0|lia|exact V2|right; left; rewrite last_used_snoc, Z.eqb_refl; f_equal; lia|].
    split; [exact A1|]. split; [exact A2|]. split; [rewrite A3, last_total_snoc; reflexivity|]. rewrite A4. destruct n; [rewrite last_used_snoc, Z.eqb_refl; f_equal; lia|f_equal; lia].
Qed.
Lemma seq_pieces : forall (p : list Z) rest k n, p ++ rest = map Z.of_nat (seq k n) -> p = map Z.of_nat (seq k (length p)) /\ rest = map Z.of_nat (seq (k + length p) (n - length p)) /\ (length p <= n)%nat.
Proof.
  intros p. induction p as [|x p IH]; intros rest k n E.
  - cbn [length app] in *. rewrite E. split; [reflexivity|]. split; [|lia]. f_equal. f_equal; lia.
  - destruct n; [discriminate|]. cbn [seq map app] in E. injection E as -> E. destruct (IH _ _ _ E) as (E1 & E2 & E3). cbn [length seq map]. split; [f_equal; exact E1|]. split; [|lia]. rewrite E2. f_equal. f_equal; lia.
Qed.
Lemma piece_calls_run : forall n k p s T, Forall possible p -> 0 <= s < 16 -> Z.of_nat (k + n) < 2 ^ 63 -> 0 <= T < 2 ^ 63 -> validate p = Some [] ->
  (last_used s p = None \/ last_used s p = Some (Z.of_nat k - 1) \/ (k = 0%nat /\ exists a, last_used s p = Some a /\ last_total s p = Some (a + 1))) ->
  let cs := p ++ piece_calls s T (map Z.of_nat (seq k n)) in
  Forall possible cs /\ validate cs = Some [] /\ last_total s cs = Some T /\ last_used s cs = match n with 0%nat => last_used s p | S _ => Some (Z.of_nat (k + n) - 1) end.
Proof.
  intros n k p s T F S0 K T0 V L. cbv zeta. destruct (using_run n k p s F S0 K V L) as (A1 & A2 & A3 & A4). unfold piece_calls. rewrite app_assoc.
  assert (P : possible (Finished s T)) by (cbn; lia). destruct (validate_snoc _ _ A1 P) as (out & V1 & V2). rewrite A2 in V1. injection V1 as <-.
  split; [apply Forall_app; auto|]. split; [exact V2|]. split; [rewrite last_total_snoc, Z.eqb_refl; reflexivity|]. rewrite last_used_snoc. exact A4.
Qed.
Lemma pieces_run : forall ps k p s T, Forall possible p -> 0 <= s < 16 -> 0 <= T < 2 ^ 63 -> validate p = Some [] ->
  (k <= Z.to_nat T)%nat -> concat ps = map Z.of_nat (seq k (Z.to_nat T - k)) -> last_total s p = Some T -> last_used s p = Some (Z.of_nat k - 1) ->
  let cs := p ++ concat (map (piece_calls s T) ps) in Forall possible cs /\ validate cs = Some [] /\ last_total s cs = Some T /\ last_used s cs = Some (T - 1).
Proof.
  intros ps. induction ps as [|x ps IH]; intros k p s T F S0 T0 V KT E LT LU; cbv zeta.
  - cbn [map concat] in *. rewrite app_nil_r. assert (Z.to_nat T - k = 0)%nat by (destruct (Z.to_nat T - k)%nat; [reflexivity|discriminate]). split; [exact F|]. split; [exact V|]. split; [exact LT|]. rewrite LU. f_equal. lia.
  - cbn [map concat] in *. apply seq_pieces in E as (E1 & E2 & E3). rewrite app_assoc.
    destruct (piece_calls_run (length x) k p s T F S0) as (A1 & A2 & A3 & A4); [lia|lia|exact V|auto|]. rewrite <- E1 in *.
    apply (IH (k + length x)%nat (p ++ piece_calls s T x) s T A1 S0 T0 A2); [lia| |exact A3|].
    + rewrite E2. f_equal. f_equal. lia.
    + rewrite A4. destruct (length x); [rewrite LU; f_equal; lia|reflexivity].
Qed.
Lemma file_run : forall f p s, Forall possible p -> 0 <= s < 16 -> well_cut f -> validate p = Some [] ->
  (last_used s p = None \/ exists a, last_used s p = Some a /\ last_total s p = Some (a + 1)) ->
  let cs := p ++ file_calls s f in Forall possible cs /\ validate cs = Some [] /\ exists a, last_used s cs = Some a /\ last_total s cs = Some (a + 1).
Proof.
  intros f p s F S0 (C1 & (x & ps & -> & NE) & C3) V L. cbv zeta. unfold file_calls, numbers in *. set (T := Z.of_nat (length (concat (x :: ps)))) in *. cbn [map concat] in *. rewrite app_assoc.
  assert (ET : length (x ++ concat ps) = Z.to_nat T) by lia. rewrite ET in C1. apply seq_pieces in C1 as (E1 & E2 & E3).
  destruct (piece_calls_run (length x) 0 p s T F S0) as (A1 & A2 & A3 & A4); [lia|lia|exact V| |].
  - destruct L as [L|L]; [left; exact L|right; right; split; [reflexivity|exact L]].
  - rewrite <- E1 in *. destruct (length x) as [|n] eqn:LX; [destruct x; [contradiction|discriminate]|]. rewrite <- LX in *.
    destruct (pieces_run ps (length x) (p ++ piece_calls s T x) s T A1 S0 ltac:(lia) A2 E3) as (B1 & B2 & B3 & B4); [rewrite E2; f_equal|exact A3|rewrite A4; f_equal; lia|].
    split; [exact B1|]. split; [exact B2|]. exists (T - 1). split; [exact B4|]. rewrite B3. f_equal. lia.
Qed.
Lemma files_run : forall fs p s, Forall possible p -> 0 <= s < 16 -> Forall well_cut fs -> validate p = Some [] ->
  (last_used s p = None \/ exists a, last_used s p = Some a /\ last_total s p = Some (a + 1)) ->
  let cs := p ++ concat (map (file_calls s) fs) in Forall possible cs /\ validate cs = Some [].
Proof.
  intros fs. induction fs as [|f fs IH]; intros p s F S0 W V L; cbv zeta; cbn [map concat].
  - rewrite app_nil_r. auto.
  - inversion W; subst. rewrite app_assoc. destruct (file_run f p s F S0 H1 V L) as (A1 & A2 & A3). apply IH; auto.
Qed.
Lemma files_silent : forall s fs, 0 <= s < 16 -> Forall well_cut fs -> Forall possible (concat (map (file_calls s) fs)) /\ validate (concat (map (file_calls s) fs)) = Some [].
Proof. intros s fs S0 W. apply (files_run fs [] s); [constructor|exact S0|exact W|reflexivity|left; reflexivity]. Qed.
Lemma other_stream_file : forall s s' f, s <> s' -> of_stream s (file_calls s' f) = [].
Proof.
  intros s s' f N. unfold file_calls, piece_calls. generalize (Z.of_nat (length (concat f))). intros T. induction f as [|x f IH]; [reflexivity|]. cbn [map concat]. rewrite !of_stream_app, IH, app_nil_r.
  cbn [of_stream filter]. replace (s' =? s) with false by lia. rewrite app_nil_r. induction x as [|y x IHx]; [reflexivity|]. cbn [map of_stream filter]. replace (s' =? s) with false by lia. exact IHx.
Qed.
Lemma own_stream : forall s cs, Forall (fun c => match c with Using s' _ => s' = s | Finished s' _ => s' = s end) cs -> of_stream s cs = cs.
Proof. intros s cs F. induction F as [|c cs C F IH]; [reflexivity|]. cbn [of_stream filter]. destruct c; subst; rewrite Z.eqb_refl; f_equal; exact IH. Qed.
(** any interleaving of the streams *)
Lemma streams_silent : forall cs, (forall s, exists fs, of_stream s cs = concat (map (file_calls s) fs) /\ Forall well_cut fs) -> Forall (fun c => match c with Using s _ => 0 <= s < 16 | Finished s _ => 0 <= s < 16 end) cs -> validate cs = Some [].
Proof.
  intros cs K R. assert (F : Forall possible cs).
  { apply Forall_forall. intros c I0. rewrite Forall_forall in R. pose proof (R c I0) as RC. set (s := match c with Using s _ => s | Finished s _ => s end). assert (S0 : 0 <= s < 16) by (destruct c; exact RC).
    destruct (K s) as (fs & E & W). destruct (files_silent s fs S0 W) as [P _]. rewrite <- E in P. rewrite Forall_forall in P. apply P. apply filter_In. split; [exact I0|]. subst s. destruct c; apply Z.eqb_refl. }
  apply streams_iff; [exact F|]. intros s S0. destruct (K s) as (fs & E & W). rewrite E. apply files_silent; assumption.
Qed.

(** What is not reported *)
Lemma run_next : forall n p s a, Forall possible p -> 0 <= s < 16 -> 0 <= a -> a + Z.of_nat n < 2 ^ 63 - 1 -> validate p = Some [] ->
  last_used s p = None \/ last_used s p = Some a ->
  let cs := p ++ map (Using s) (map (fun i => a + 1 + Z.of_nat i) (seq 0 n)) in Forall possible cs /\ validate cs = Some [].
Proof.
  intros n p s a F S0 A0 B V L. cbv zeta. replace (map (fun i => a + 1 + Z.of_nat i) (seq 0 n)) with (map Z.of_nat (seq (Z.to_nat (a + 1)) n)).
  - destruct (using_run n (Z.to_nat (a + 1)) p s F S0) as (A1 & A2 & _); [lia|exact V| |auto]. destruct L as [L|L]; [auto|]. right. left. rewrite L. f_equal. lia.
  - remember (Z.to_nat (a + 1)) as k eqn:Ek. replace k with (k + 0)%nat by lia. assert (G : forall n j, map Z.of_nat (seq (k + j) n) = map (fun i => a + 1 + Z.of_nat i) (seq j n)).
    { intros m. induction m; intros j; [reflexivity|]. cbn [seq map]. f_equal; [lia|]. replace (S (k + j)) with (k + S j)%nat by lia. apply IHm. }
    apply G.
Qed.
Lemma start_silent : forall s a n, 0 <= s < 16 -> 0 <= a -> a + Z.of_nat n < 2 ^ 63 - 1 -> validate (map (Using s) (map (fun i => a + 1 + Z.of_nat i) (seq 0 n))) = Some [].
Proof. intros s a n S0 A0 B. apply (run_next n [] s a); [constructor|exact S0|exact A0|exact B|reflexivity|left; reflexivity]. Qed.
Lemma cut_short : forall s n T, 0 <= s < 16 -> Z.of_nat n < 2 ^ 63 -> 0 <= T < 2 ^ 63 ->
  let cs := piece_calls s T (numbers n) in Forall possible cs /\ validate cs = Some [] /\ last_total s cs = Some T /\ last_used s cs = match n with 0%nat => None | S _ => Some (Z.of_nat n - 1) end.
Proof. intros s n T S0 N T0. apply (piece_calls_run n 0 [] s T); [constructor|exact S0|exact N|exact T0|reflexivity|left; reflexivity]. Qed.
Lemma coincidence : forall s k n T1 T2, 0 <= s < 16 -> (0 < k)%nat -> Z.of_nat k + Z.of_nat n < 2 ^ 63 - 1 -> 0 <= T1 < 2 ^ 63 -> 0 <= T2 < 2 ^ 63 ->
  validate (piece_calls s T1 (numbers k) ++ piece_calls s T2 (map (fun i => Z.of_nat k + Z.of_nat i) (seq 0 n))) = Some [].
Proof.
  intros s k n T1 T2 S0 K N R1 R2. destruct (cut_short s k T1 S0 ltac:(lia) R1) as (A1 & A2 & A3 & A4). destruct k as [|k]; [lia|].
  destruct (run_next n (piece_calls s T1 (numbers (S k))) s (Z.of_nat k) A1 S0) as (B1 & B2); [lia|lia|exact A2|right; rewrite A4; f_equal; lia|].
  replace (map (fun i => Z.of_nat k + 1 + Z.of_nat i) (seq 0 n)) with (map (fun i => Z.of_nat (S k) + Z.of_nat i) (seq 0 n)) in * by (apply map_ext; intros; lia).
  unfold piece_calls at 2. rewrite app_assoc. assert (P : possible (Finished s T2)) by (cbn; lia). destruct (validate_snoc _ _ B1 P) as (out & V1 & V2). rewrite B2 in V1. injection V1 as <-. exact V2.
Qed.
Lemma empty_first : forall s f T n, 0 <= s < 16 -> well_cut f -> 0 <= T < 2 ^ 63 -> T <> Z.of_nat (length (concat f)) -> Z.of_nat n < 2 ^ 63 - 1 ->
  validate (file_calls s f ++ piece_calls s T [] ++ piece_calls s T (numbers (S n))) = Some [MissingAtTheEnd T (Z.of_nat (length (concat f)) - 1)].
Proof.
  intros s f T n S0 W T0 NE N. destruct (file_run f [] s (Forall_nil _) S0 W eq_refl (or_introl eq_refl)) as (A1 & A2 & a & A3 & A4). cbn [app] in *.
  assert (EA : a = Z.of_nat (length (concat f)) - 1).
  { destruct W as (C1 & (x & ps & -> & NE') & C3). unfold file_calls in A4. clear A1 A2 A3. revert A4. set (L := Z.of_nat (length (concat (x :: ps)))).
    assert (G : forall l p, last_total s (p ++ concat (map (piece_calls s L) (l ++ [x]))) = Some L).
    { intros l p. rewrite map_app, concat_app. cbn [map concat]. rewrite app_nil_r. unfold piece_calls at 2. rewrite !app_assoc, last_total_snoc, Z.eqb_refl. reflexivity. }
    destruct (exists_last (l := x :: ps)) as (l & y & E); [discriminate|]. rewrite E. rewrite map_app, concat_app. cbn [map concat]. rewrite app_nil_r. unfold piece_calls at 2. rewrite !app_assoc, last_total_snoc, Z.eqb_refl. intros A. injection A as A. lia. }
  clear A4. subst a. assert (P : possible (Finished s T)) by (cbn; lia). cbn [piece_calls map app].
  assert (EQ : forall A (x : A) l m, l ++ x :: m = (l ++ [x]) ++ m) by (intros; rewrite <- app_assoc; reflexivity).
  rewrite EQ. destruct (validate_snoc _ _ A1 P) as (o1 & V1 & V2). rewrite A2 in V1. injection V1 as <-. cbn [reports app] in V2.
  set (p := file_calls s f ++ [Finished s T]) in *. assert (FP : Forall possible p) by (apply Forall_app; auto).
  unfold piece_calls, numbers. cbn [seq map app]. change (Z.of_nat 0) with 0. rewrite EQ. assert (P0 : possible (Using s 0)) by (cbn; lia).
  destruct (validate_snoc _ _ FP P0) as (o2 & V3 & V4). rewrite V2 in V3. injection V3 as <-. cbn [app] in V4.
  assert (R : reports p (Using s 0) = [MissingAtTheEnd T (Z.of_nat (length (concat f)) - 1)]).
  { cbn [reports]. unfold p. rewrite last_used_snoc, last_total_snoc, !Z.eqb_refl, A3. replace (T =? Z.of_nat (length (concat f)) - 1 + 1) with false by lia. reflexivity. }
  rewrite R in V4. set (m := MissingAtTheEnd T _) in *. set (q := p ++ [Using s 0]) in *.
  (* the rest adds nothing *)
  assert (G : forall n k q, Forall possible q -> Z.of_nat (k + n) < 2 ^ 63 -> validate q = Some [m] -> last_used s q = Some (Z.of_nat k - 1) -> Forall possible (q ++ map (Using s) (map Z.of_nat (seq k n))) /\ validate (q ++ map (Using s) (map Z.of_nat (seq k n))) = Some [m]).
  { clear - S0. clearbody m. intros n. induction n as [|n IH]; intros k q F B V L; cbn [seq map]; [rewrite app_nil_r; auto|].
    replace (q ++ Using s (Z.of_nat k) :: map (Using s) (map Z.of_nat (seq (S k) n))) with ((q ++ [Using s (Z.of_nat k)]) ++ map (Using s) (map Z.of_nat (seq (S k) n))) by (rewrite <- app_assoc; reflexivity).
    assert (P : possible (Using s (Z.of_nat k))) by (cbn; lia). destruct (validate_snoc _ _ F P) as (o & V1 & V2). rewrite V in V1. injection V1 as <-.
    assert (R : reports q (Using s (Z.of_nat k)) = []). { apply reports_nil; [exact F|lia|]. intros a A. rewrite L in A. injection A as <-. left. lia. }
    rewrite R in V2. apply IH; [apply Forall_app; auto|lia|exact V2|rewrite last_used_snoc, Z.eqb_refl; f_equal; lia]. }
  destruct (G n 1%nat q) as (B1 & B2); [apply Forall_app; auto|lia|exact V4|unfold q; rewrite last_used_snoc, Z.eqb_refl; reflexivity|].
  rewrite app_assoc. destruct (validate_snoc _ _ B1 P) as (o & V5 & V6). rewrite B2 in V5. injection V5 as <-. exact V6.
Qed.
Lemma outside : forall p s n, Forall possible p -> 16 <= s -> validate (p ++ [Using s n]) = None.
Proof.
  intros p s n F H. destruct (run_holds p F) as (v & out & R & (L1 & L2 & _)). unfold validate. rewrite run_app, R. cbn [run step]. unfold using_sample, index.
  replace (s <? 0) with false by lia. rewrite (proj2 (nth_error_None (v_last v) (Z.to_nat s))); [reflexivity|]. rewrite L1. unfold STREAM_MAX. lia.
Qed.
