From Coq Require Import ZifyNat.
From Verif Require Import Util Copy_model.
Local Open Scope Z_scope.
Local Ltac Zify.zify_post_hook ::= Z.div_mod_to_equations.

(** * slices *)
Lemma zlen_pos l : 0 <= zlen l. Proof. unfold zlen. lia. Qed.
Lemma zlen_app a b : zlen (a ++ b) = zlen a + zlen b. Proof. unfold zlen. rewrite app_length. lia. Qed.
Lemma slice_len l a n : 0 <= a -> 0 <= n -> zlen (slice l a n) = Z.max 0 (Z.min n (zlen l - a)).
Proof. intros A N. unfold zlen, slice. rewrite firstn_length, skipn_length. lia. Qed.
Lemma slice_app l a n m : 0 <= a -> 0 <= n -> 0 <= m -> slice l a (n + m) = slice l a n ++ slice l (a + n) m.
Proof.
  intros A N M. unfold slice. rewrite !Z2Nat.inj_add by lia. set (x := Z.to_nat a). set (y := Z.to_nat n). set (z := Z.to_nat m).
  assert (Q : skipn (x + y) l = skipn y (skipn x l)). { clear. revert l. induction x as [|x IH]; intros l; [reflexivity|]. destruct l as [|b l]; [rewrite !skipn_nil; reflexivity|]. cbn [skipn Nat.add]. apply IH. }
  rewrite Q. generalize (skipn x l). clear. intros l. revert l. induction y as [|y IH]; intros l; [reflexivity|]. destruct l as [|b l]; [cbn [skipn firstn Nat.add app]; rewrite firstn_nil; reflexivity|]. cbn [skipn firstn Nat.add app]. rewrite IH. reflexivity.
Qed.
Lemma slice_full l a n : 0 <= a -> 0 <= n -> slice l a n = slice l a (zlen (slice l a n)).
Proof.
  intros A N. rewrite slice_len by assumption. unfold slice. destruct (Z_le_gt_dec n (zlen l - a)) as [L|G]; [f_equal; lia|]. rewrite !firstn_all2; [reflexivity| |]; rewrite skipn_length; unfold zlen in *; lia.
Qed.
Lemma slice_nth l a n i : 0 <= a -> 0 <= i < n -> nth_error (slice l a n) (Z.to_nat i) = nth_error l (Z.to_nat (a + i)).
Proof.
  intros A I. unfold slice. rewrite Z2Nat.inj_add by lia. assert (L : (Z.to_nat i < Z.to_nat n)%nat) by lia. revert L. generalize (Z.to_nat i) (Z.to_nat n) (Z.to_nat a). clear. intros i n a L.
  assert (Q : nth_error (skipn a l) i = nth_error l (a + i)). { clear. revert l. induction a as [|a IH]; intros l; [reflexivity|]. destruct l as [|b l]; [destruct i; reflexivity|]. cbn [skipn Nat.add nth_error]. apply IH. }
  rewrite <- Q. generalize (skipn a l). clear - L. intros l. revert i l L. induction n as [|n IH]; intros i l L; [lia|]. destruct l as [|b l]; [destruct i; reflexivity|]. destruct i as [|i]; [reflexivity|]. cbn [firstn nth_error]. apply IH. lia.
Qed.
Lemma take_spec {A} (l : list A) : forall i x r, take_at i l = Some (x, r) -> length l = S (length r) /\ (forall y, In y l <-> y = x \/ In y r).
Proof.
  induction l as [|a l IH]; intros [|i] x r E; cbn [take_at] in E; try discriminate E.
  - assert (a = x /\ l = r) by (split; congruence). destruct H as (<- & <-). split; [reflexivity|]. intros y. cbn [In]. intuition congruence.
  - destruct (take_at i l) as [(y & r')|] eqn:T; [|discriminate E]. assert (y = x /\ r = a :: r') by (split; congruence). destruct H as (-> & ->). destruct (IH i x r' T) as (L & I). split; [cbn [length]; rewrite L; reflexivity|]. intros z. cbn [In]. rewrite I. tauto.
Qed.

Lemma app_split {A} (a b x y : list A) : length a = length x -> a ++ b = x ++ y -> a = x /\ b = y.
Proof. revert x. induction a as [|h a IH]; intros [|k x] L E; try discriminate L; [split; [reflexivity|exact E]|]. rewrite <- !app_comm_cons in E. injection E as -> E. injection L as L. destruct (IH x L E) as (-> & ->). split; reflexivity. Qed.
(** * counters *)
Lemma u32_range x : 0 <= u32 x < 2 ^ 32. Proof. unfold u32. apply Z.mod_pos_bound. lia. Qed.
Lemma u32_inc a b n : 0 <= a < 2 ^ 32 -> 0 <= b < 2 ^ 32 -> u32 (a - b) = n -> 0 <= n -> n + 1 < 2 ^ 32 -> u32 (u32 (a + 1) - b) = n + 1.
Proof. unfold u32. change (2 ^ 32) with 4294967296. intros. lia. Qed.
Lemma u32_dec a b n : 0 <= a < 2 ^ 32 -> 0 <= b < 2 ^ 32 -> u32 (a - b) = n -> 0 < n -> u32 (a - u32 (b + 1)) = n - 1.
Proof. unfold u32. change (2 ^ 32) with 4294967296. intros. lia. Qed.
Lemma u32_zero a b : 0 <= a < 2 ^ 32 -> 0 <= b < 2 ^ 32 -> (a =? b) = (u32 (a - b) =? 0).
Proof. unfold u32. change (2 ^ 32) with 4294967296. intros. destruct (Z.eqb_spec a b); destruct (Z.eqb_spec ((a - b) mod 4294967296) 0); try reflexivity; exfalso; lia. Qed.

(** * the invariant *)
Definition goes_on (p : phase) : Prop := p = Looping \/ p = Reading.
Definition quiet (p : phase) : Prop := p = Last \/ p = LastAsleep \/ p = Done \/ p = Failed.
Record data (c : cfg) (s : st) : Prop := {
  d_pos : seek c <= s_pos s;
  d_reads : exists n, 0 <= n /\ s_next s = c_dpos c + n /\ seek c + n + zlen (concat (s_reads s)) = s_pos s /\ concat (s_reads s) = slice (c_src c) (seek c + n) (zlen (concat (s_reads s)));
  d_writes : forall w, In w (s_writes s) -> c_dpos c <= fst w /\ fst w + zlen (snd w) <= s_next s /\ snd w = slice (c_src c) (seek c + (fst w - c_dpos c)) (zlen (snd w));
  d_in : forall i, c_dpos c <= i < s_next s -> (exists w, In w (s_writes s) /\ fst w <= i < fst w + zlen (snd w)) \/ s_mem s i = nth_error (c_src c) (Z.to_nat (seek c + (i - c_dpos c)));
  d_out : forall i, i < c_dpos c \/ s_next s <= i -> s_mem s i = c_dest c i }.
Record count (c : cfg) (s : st) : Prop := {
  n_range : 0 <= s_read s < 2 ^ 32 /\ 0 <= s_write s < 2 ^ 32;
  n_diff : u32 (s_read s - s_write s) = Z.of_nat (in_flight s);
  n_max : (in_flight s <= 11)%nat;
  n_reading : s_phase s = Reading -> (in_flight s <= 10)%nat /\ more c s = true;
  n_after : ~ goes_on (s_phase s) -> more c s = false;
  n_loop : goes_on (s_phase s) \/ s_phase s = Ending -> s_wait_end s = false /\ s_signal s = false;
  n_wait : s_phase s = Comparing \/ s_phase s = Waiting \/ s_phase s = Asleep \/ s_phase s = TimedOut -> s_wait_end s = true;
  n_signal : s_signal s = true -> in_flight s = 0%nat;
  n_quiet : quiet (s_phase s) -> in_flight s = 0%nat;
  n_cb : s_phase s = Waiting \/ s_phase s = Asleep \/ s_phase s = TimedOut -> in_flight s = 0%nat -> s_cb s = true \/ s_signal s = true }.
Record place (c : cfg) (s : st) : Prop := {
  p_k : exists k, 0 <= k /\ (0 < k -> c_to c = 0 \/ seek c + (k - 1) * c_chunk c < c_to c) /\
    (s_eof s = false -> s_pos s = seek c + k * c_chunk c /\ s_pos s <= zlen (c_src c)) /\ (s_eof s = true -> 0 < k /\ s_pos s = zlen (c_src c) /\ zlen (c_src c) < seek c + k * c_chunk c) }.
Definition fine (c : cfg) : Prop := 0 < c_chunk c /\ 0 <= seek c <= zlen (c_src c).
Lemma data_initial c : data c (initial c).
Proof.
  constructor; cbn [initial s_pos s_reads s_writes s_next s_mem]; [lia| |intros w []|intros i H; lia|reflexivity].
  exists 0. cbn [concat]. change (zlen []) with 0. split; [lia|]. split; [lia|]. split; [lia|]. reflexivity.
Qed.
Lemma count_initial c : count c (initial c).
Proof.
  constructor; cbn [initial s_read s_write s_phase s_wait_end s_signal s_cb].
  - split; lia.
  - reflexivity.
  - unfold in_flight. cbn [initial s_reads s_writes length]. lia.
  - discriminate.
  - intros N. exfalso. apply N. left. reflexivity.
  - intros _. split; reflexivity.
  - intros [H|[H|[H|H]]]; discriminate H.
  - discriminate.
  - intros [H|[H|[H|H]]]; discriminate H.
  - intros [H|[H|H]]; discriminate H.
Qed.
Lemma place_initial c : fine c -> place c (initial c).
Proof. intros (F1 & F2). constructor. exists 0. cbn [initial s_eof s_pos]. split; [lia|]. split; [lia|]. split; [intros _; lia|discriminate]. Qed.

(** steps which change the phase only *)
Lemma data_same c s s' : s_pos s' = s_pos s -> s_reads s' = s_reads s -> s_writes s' = s_writes s -> s_next s' = s_next s -> s_mem s' = s_mem s -> data c s -> data c s'.
Proof. intros E1 E2 E3 E4 E5 [D1 D2 D3 D4 D5]. constructor; rewrite ?E1, ?E2, ?E3, ?E4, ?E5; assumption. Qed.
Lemma data_issue c s : fine c -> data c s -> data c (issue c s).
Proof.
  intros (F1 & F2) [D1 D2 D3 D4 D5]. unfold issue. set (b := slice _ _ _). constructor; cbn [s_pos s_reads s_writes s_next s_mem]; try assumption.
  - pose proof (zlen_pos b). lia.
  - destruct D2 as (n & N0 & N1 & N2 & N3). exists n. rewrite concat_app. cbn [concat]. rewrite app_nil_r, zlen_app. split; [exact N0|]. split; [exact N1|]. split; [lia|].
    rewrite slice_app by (try apply zlen_pos; lia). rewrite <- N3, N2. f_equal. subst b. apply slice_full; lia.
Qed.
Lemma data_read c s s' : fine c -> data c s -> read_done s = Some s' -> data c s'.
Proof.
  intros (F1 & F2) [D1 D2 D3 D4 D5] E. unfold read_done in E. destruct (s_reads s) as [|b r] eqn:R; [discriminate E|]. match type of E with Some ?w = _ => assert (Q : s' = w) by congruence end. subst s'. clear E.
  destruct D2 as (n & N0 & N1 & N2 & N3). cbn [concat] in N2, N3. rewrite zlen_app in N2, N3. rewrite slice_app in N3 by (try apply zlen_pos; lia). pose proof (zlen_pos b) as B0. pose proof (zlen_pos (concat r)) as C0.
  assert (X : b = slice (c_src c) (seek c + n) (zlen b) /\ concat r = slice (c_src c) (seek c + n + zlen b) (zlen (concat r))).
  { assert (LB : zlen (slice (c_src c) (seek c + n) (zlen b)) = zlen b). { pose proof (f_equal zlen N3) as LL. rewrite !zlen_app in LL. rewrite !slice_len in LL by lia. rewrite slice_len by lia. lia. }
    unfold zlen in LB at 1 3. apply Nat2Z.inj in LB. apply app_split; [symmetry; exact LB|exact N3]. }
  destruct X as (X1 & X2). constructor; cbn [s_pos s_reads s_writes s_next s_mem].
  - exact D1.
  - exists (n + zlen b). replace (seek c + (n + zlen b)) with (seek c + n + zlen b) by lia. split; [lia|]. split; [lia|]. split; [lia|exact X2].
  - intros w I. apply in_app_or in I. destruct I as [I|[<-|[]]]; [destruct (D3 w I) as (W1 & W2 & W3); split; [exact W1|]; split; [lia|exact W3]|]. cbn [fst snd]. split; [lia|]. split; [lia|]. rewrite N1. replace (c_dpos c + n - c_dpos c) with n by lia. exact X1.
  - intros i I. destruct (Z_lt_ge_dec i (s_next s)) as [L|G].
    + destruct (D4 i ltac:(lia)) as [(w & W & WI)|M]; [left; exists w; split; [apply in_or_app; left; exact W|exact WI]|right; exact M].
    + left. exists (s_next s, b). split; [apply in_or_app; right; left; reflexivity|cbn [fst snd]; lia].
  - intros i I. apply D5. lia.
Qed.
Lemma data_write c i s s' : fine c -> data c s -> write_done i s = Some s' -> data c s'.
Proof.
  intros (F1 & F2) [D1 D2 D3 D4 D5] E. unfold write_done in E. destruct (take_at i (s_writes s)) as [((off & b) & r)|] eqn:T; [|discriminate E]. match type of E with Some ?w = _ => assert (Q : s' = w) by congruence end. subst s'. clear E. destruct (take_spec _ _ _ _ T) as (_ & I).
  assert (W0 : In (off, b) (s_writes s)) by (apply I; left; reflexivity). destruct (D3 _ W0) as (A1 & A2 & A3). cbn [fst snd] in A1, A2, A3. constructor; cbn [s_pos s_reads s_writes s_next s_mem].
  - exact D1.
  - exact D2.
  - intros w W. apply D3. apply I. right. exact W.
  - intros j J. unfold set_bytes. destruct ((off <=? j) && (j <? off + zlen b)) eqn:Q.
    + right. apply Bool.andb_true_iff in Q. rewrite A3, slice_nth by lia. f_equal. lia.
    + destruct (D4 j J) as [(w & W & WI)|M]; [|right; exact M]. apply I in W. destruct W as [->|W]; [|left; exists w; split; assumption]. cbn [fst snd] in WI. exfalso. apply Bool.andb_false_iff in Q. lia.
  - intros j J. unfold set_bytes. replace ((off <=? j) && (j <? off + zlen b)) with false; [apply D5; exact J|]. symmetry. apply Bool.andb_false_iff. lia.
Qed.
Lemma data_step c l s s' : fine c -> data c s -> step c l s = Some s' -> data c s'.
Proof.
  intros F D E. assert (SP : forall p, data c (set_phase p s)) by (intros p; apply (data_same c s); try reflexivity; exact D).
  destruct l; cbn [step] in E.
  - unfold main_step in E. destruct (s_phase s).
    + destruct (more c s); [destruct (_ <? _)|]; match type of E with Some ?w = _ => assert (Q : s' = w) by congruence end; rewrite Q; [exact D|apply SP|apply SP].
    + assert (Q : s' = issue c s) by congruence. rewrite Q. apply data_issue; assumption.
    + match type of E with Some ?w = _ => assert (Q : s' = w) by congruence end. rewrite Q. apply (data_same c s); try reflexivity. exact D.
    + match type of E with Some ?w = _ => assert (Q : s' = w) by congruence end. rewrite Q. apply SP.
    + match type of E with Some ?w = _ => assert (Q : s' = w) by congruence end. rewrite Q. apply SP.
    + destruct (s_signal s); [|discriminate E]. match type of E with Some ?w = _ => assert (Q : s' = w) by congruence end. rewrite Q. apply SP.
    + match type of E with Some ?w = _ => assert (Q : s' = w) by congruence end. rewrite Q. apply SP.
    + match type of E with Some ?w = _ => assert (Q : s' = w) by congruence end. rewrite Q. apply SP.
    + destruct (s_signal s); [|discriminate E]. match type of E with Some ?w = _ => assert (Q : s' = w) by congruence end. rewrite Q. apply SP.
    + discriminate E.
    + discriminate E.
  - unfold timeout_step in E. destruct (s_phase s); try discriminate E; match type of E with Some ?w = _ => assert (Q : s' = w) by congruence end; rewrite Q; apply SP.
  - destruct (s_cb s); [discriminate E|]. apply (data_read c s); assumption.
  - destruct (s_cb s); [discriminate E|]. apply (data_write c i s); assumption.
  - destruct (s_cb s); [|discriminate E]. assert (Q : s' = cb_end s) by congruence. rewrite Q. apply (data_same c s); try reflexivity. exact D.
Qed.

(** * counting *)
Lemma slice_issue c s : fine c -> place c s -> more c s = true -> let b := slice (c_src c) (s_pos s) (c_chunk c) in s_eof s = false /\ s_pos s <= zlen (c_src c) /\ 0 <= s_pos s /\ zlen b = Z.min (c_chunk c) (zlen (c_src c) - s_pos s).
Proof.
  intros (F1 & F2) [(k & K0 & K1 & K2 & K3)] M b. unfold more in M. apply Bool.andb_true_iff in M. destruct M as (M1 & M2). apply Bool.negb_true_iff in M1.
  assert (EF : s_eof s = false). { destruct (s_eof s) eqn:EO; [|reflexivity]. destruct (K3 eq_refl) as (_ & P & _). unfold at_end in M1. destruct (c_lazy c); [congruence|]. lia. }
  destruct (K2 EF) as (P1 & P2). assert (0 <= k * c_chunk c) by (apply Z.mul_nonneg_nonneg; lia). split; [exact EF|]. split; [exact P2|]. split; [lia|]. subst b. rewrite slice_len by lia. lia.
Qed.
Lemma place_same c s s' : s_pos s' = s_pos s -> s_eof s' = s_eof s -> place c s -> place c s'.
Proof. intros E1 E2 [P]. constructor. rewrite E1, E2. exact P. Qed.
Lemma place_issue c s : fine c -> place c s -> more c s = true -> place c (issue c s).
Proof.
  intros F P M. destruct (slice_issue c s F P M) as (EF & PL & P0 & LB). destruct P as [(k & K0 & K1 & K2 & K3)]. destruct F as (F1 & F2). destruct (K2 EF) as (Q1 & _). constructor. exists (k + 1). unfold issue. set (b := slice _ _ _) in *. cbn [s_pos s_eof]. split; [lia|].
  unfold more in M. apply Bool.andb_true_iff in M. destruct M as (_ & M2). split; [intros _; destruct (Z.eqb_spec (c_to c) 0); [left; assumption|right; cbn in M2; replace (k + 1 - 1) with k by lia; lia]|].
  rewrite Z.mul_add_distr_r. split; intros E; lia.
Qed.
Lemma more_same c s s' : s_pos s' = s_pos s -> s_eof s' = s_eof s -> more c s' = more c s.
Proof. intros E1 E2. unfold more, at_end. rewrite E1, E2. reflexivity. Qed.
Lemma flight_eq s s' : s_reads s' = s_reads s -> s_writes s' = s_writes s -> in_flight s' = in_flight s.
Proof. intros E1 E2. unfold in_flight. rewrite E1, E2. reflexivity. Qed.
Ltac phases := repeat match goal with H : _ \/ _ |- _ => destruct H | H : goes_on _ |- _ => destruct H | H : quiet _ |- _ => destruct H end; try discriminate; try congruence.
(** a change of the phase, the counters as they are *)
Lemma count_phase c s p : count c s ->
  (p = Reading -> (in_flight s <= 10)%nat /\ more c s = true) -> (~ goes_on p -> more c s = false) -> (goes_on p \/ p = Ending -> s_wait_end s = false /\ s_signal s = false) ->
  (p = Comparing \/ p = Waiting \/ p = Asleep \/ p = TimedOut -> s_wait_end s = true) -> (quiet p -> in_flight s = 0%nat) ->
  (p = Waiting \/ p = Asleep \/ p = TimedOut -> in_flight s = 0%nat -> s_cb s = true \/ s_signal s = true) -> count c (set_phase p s).
Proof.
  intros [C1 C2 C3 C4 C5 C6 C7 C8 C9 C10] H1 H2 H3 H4 H5 H6. assert (M : more c (set_phase p s) = more c s) by reflexivity. assert (I : in_flight (set_phase p s) = in_flight s) by reflexivity.
  constructor; rewrite ?M, ?I; cbn [set_phase s_phase s_read s_write s_wait_end s_signal s_cb]; assumption.
Qed.
Lemma flight_zero s c : count c s -> (s_read s =? s_write s) = (Z.of_nat (in_flight s) =? 0).
Proof. intros C. rewrite (u32_zero _ _ (proj1 (n_range _ _ C)) (proj2 (n_range _ _ C))), (n_diff _ _ C). reflexivity. Qed.
Lemma count_step c l s s' : fine c -> place c s -> count c s -> step c l s = Some s' -> count c s'.
Proof.
  intros F P C E. pose proof (flight_zero s c C) as Z0. pose proof C as [C1 C2 C3 C4 C5 C6 C7 C8 C9 C10]. destruct l; cbn [step] in E.
  - unfold main_step in E. destruct (s_phase s) eqn:PH.
    + destruct (more c s) eqn:M.
      * destruct (10 <? u32 (s_read s - s_write s)) eqn:W; match type of E with Some ?w = _ => assert (Q : s' = w) by congruence end; rewrite Q; [exact C|]. apply count_phase; try assumption; intros; phases; try (exfalso; match goal with H : ~ goes_on Reading |- _ => apply H; right; reflexivity end); try (split; [lia|exact M]).
        apply C6. left. left. reflexivity.
      * match type of E with Some ?w = _ => assert (Q : s' = w) by congruence end; rewrite Q. apply count_phase; try assumption; intros; phases. apply C6. left. left. reflexivity.
    + assert (Q : s' = issue c s) by congruence. rewrite Q. destruct (C4 eq_refl) as (N10 & M). destruct C1 as (R1 & R2). destruct (C6 (or_introl (or_intror eq_refl))) as (W1 & W2).
      assert (IF : in_flight (issue c s) = S (in_flight s)) by (unfold in_flight, issue; cbn [s_reads s_writes]; rewrite app_length; cbn [length]; lia).
      constructor; rewrite ?IF; unfold issue; cbn [s_phase s_read s_write s_wait_end s_signal s_cb]; try (intros; phases).
      * split; [apply u32_range|exact R2].
      * rewrite (u32_inc _ _ (Z.of_nat (in_flight s))); try assumption; try lia; change (2 ^ 32) with 4294967296; lia.
      * lia.
      * exfalso. match goal with H : ~ goes_on Looping |- _ => apply H; left; reflexivity end.
      * split; assumption.
    + match type of E with Some ?w = _ => assert (Q : s' = w) by congruence end; rewrite Q. destruct (C6 (or_intror eq_refl)) as (W1 & W2). match goal with |- count c ?w => assert (IF : in_flight w = in_flight s) by reflexivity; assert (MF : more c w = more c s) by reflexivity end.
      constructor; rewrite ?IF, ?MF; cbn [s_phase s_read s_write s_wait_end s_signal s_cb]; try assumption; try reflexivity; intros; phases. apply C5. intros H0. phases.
    + match type of E with Some ?w = _ => assert (Q : s' = w) by congruence end; rewrite Q, Z0. assert (MF : more c s = false) by (apply C5; intros H; phases).
      destruct (Z.eqb_spec (Z.of_nat (in_flight s)) 0) as [E0|E0]; apply count_phase; try assumption; intros; phases; try lia; auto.
    + match type of E with Some ?w = _ => assert (Q : s' = w) by congruence end; rewrite Q. assert (MF : more c s = false) by (apply C5; intros H; phases).
      destruct (s_signal s) eqn:SG; apply count_phase; try assumption; intros; phases; auto; rewrite SG in *; auto.
    + destruct (s_signal s) eqn:SG; [|discriminate E]. match type of E with Some ?w = _ => assert (Q : s' = w) by congruence end; rewrite Q. assert (MF : more c s = false) by (apply C5; intros H; phases).
      apply count_phase; try assumption; intros; phases; auto.
    + match type of E with Some ?w = _ => assert (Q : s' = w) by congruence end; rewrite Q, Z0. assert (MF : more c s = false) by (apply C5; intros H; phases).
      destruct (Z.eqb_spec (Z.of_nat (in_flight s)) 0) as [E0|E0]; apply count_phase; try assumption; intros; phases; try lia; auto 6.
    + match type of E with Some ?w = _ => assert (Q : s' = w) by congruence end; rewrite Q. assert (MF : more c s = false) by (apply C5; intros H; phases). assert (I0 : in_flight s = 0%nat) by (apply C9; left; reflexivity).
      destruct (s_signal s); apply count_phase; try assumption; intros; phases; auto.
    + destruct (s_signal s) eqn:SG; [|discriminate E]. match type of E with Some ?w = _ => assert (Q : s' = w) by congruence end; rewrite Q. assert (MF : more c s = false) by (apply C5; intros H; phases).
      apply count_phase; try assumption; intros; phases; auto.
    + discriminate E.
    + discriminate E.
  - unfold timeout_step in E. destruct (s_phase s) eqn:PH; try discriminate E; match type of E with Some ?w = _ => assert (Q : s' = w) by congruence end; rewrite Q; assert (MF : more c s = false) by (apply C5; intros H; phases);
      apply count_phase; try assumption; intros; phases; auto 6. apply C9. right. left. reflexivity.
  - destruct (s_cb s) eqn:CB; [discriminate E|]. unfold read_done in E. destruct (s_reads s) as [|b r] eqn:R; [discriminate E|]. match type of E with Some ?w = _ => assert (Q : s' = w) by congruence end; rewrite Q.
    match goal with |- count c ?w => assert (IF : in_flight w = in_flight s) by (unfold in_flight; cbn [s_reads s_writes]; rewrite R, app_length; cbn [length]; lia); assert (MF : more c w = more c s) by reflexivity end.
    constructor; rewrite ?IF, ?MF; cbn [s_phase s_read s_write s_wait_end s_signal s_cb]; try assumption. rewrite CB. exact C10.
  - destruct (s_cb s) eqn:CB; [discriminate E|]. unfold write_done in E. destruct (take_at i (s_writes s)) as [((off & b) & r)|] eqn:T; [|discriminate E]. match type of E with Some ?w = _ => assert (Q : s' = w) by congruence end; rewrite Q. destruct (take_spec _ _ _ _ T) as (TL & _).
    match goal with |- count c ?w => assert (IF : S (in_flight w) = in_flight s) by (unfold in_flight; cbn [s_reads s_writes]; rewrite TL; lia); assert (MF : more c w = more c s) by reflexivity; set (w0 := w) in * end. destruct C1 as (R1 & R2).
    constructor; rewrite ?MF; try (cbn [w0 s_phase s_read s_write s_wait_end s_signal s_cb]; assumption).
    + cbn [w0 s_read s_write]. split; [exact R1|apply u32_range].
    + cbn [w0 s_read s_write]. rewrite (u32_dec _ _ (Z.of_nat (in_flight s))); try assumption; lia.
    + lia.
    + intros H. cbn [w0 s_phase] in H. destruct (C4 H) as (H1 & H2). split; [lia|exact H2].
    + intros H. cbn [w0 s_signal] in H. specialize (C8 H). lia.
    + intros H. cbn [w0 s_phase] in H. specialize (C9 H). lia.
    + intros _ _. left. reflexivity.
  - destruct (s_cb s) eqn:CB; [|discriminate E]. assert (Q : s' = cb_end s) by congruence. rewrite Q. assert (IF : in_flight (cb_end s) = in_flight s) by reflexivity. assert (MF : more c (cb_end s) = more c s) by reflexivity.
    constructor; rewrite ?IF, ?MF; unfold cb_end; cbn [s_phase s_read s_write s_wait_end s_signal s_cb]; try assumption.
    + intros H. destruct (C6 H) as (W1 & W2). rewrite W1, W2. split; reflexivity.
    + intros H. apply Bool.orb_true_iff in H. destruct H as [H|H]; [apply C8; exact H|]. apply Bool.andb_true_iff in H. destruct H as (_ & H). lia.
    + intros H I. right. rewrite (C7 (or_intror H)). replace (s_read s =? s_write s) with true by lia. apply Bool.orb_true_r.
Qed.
Lemma place_step c l s s' : fine c -> place c s -> count c s -> step c l s = Some s' -> place c s'.
Proof.
  intros F P C E. assert (SP : forall p, place c (set_phase p s)) by (intros p; apply (place_same c s); try reflexivity; exact P).
  destruct l; cbn [step] in E.
  - unfold main_step in E. destruct (s_phase s) eqn:PH.
    + destruct (more c s); [destruct (_ <? _)|]; match type of E with Some ?w = _ => assert (Q : s' = w) by congruence end; rewrite Q; [exact P|apply SP|apply SP].
    + assert (Q : s' = issue c s) by congruence. rewrite Q. apply place_issue; try assumption. apply (n_reading _ _ C PH).
    + match type of E with Some ?w = _ => assert (Q : s' = w) by congruence end. rewrite Q. apply (place_same c s); try reflexivity. exact P.
    + match type of E with Some ?w = _ => assert (Q : s' = w) by congruence end. rewrite Q. apply SP.
    + match type of E with Some ?w = _ => assert (Q : s' = w) by congruence end. rewrite Q. apply SP.
    + destruct (s_signal s); [|discriminate E]. match type of E with Some ?w = _ => assert (Q : s' = w) by congruence end. rewrite Q. apply SP.
    + match type of E with Some ?w = _ => assert (Q : s' = w) by congruence end. rewrite Q. apply SP.
    + match type of E with Some ?w = _ => assert (Q : s' = w) by congruence end. rewrite Q. apply SP.
    + destruct (s_signal s); [|discriminate E]. match type of E with Some ?w = _ => assert (Q : s' = w) by congruence end. rewrite Q. apply SP.
    + discriminate E.
    + discriminate E.
  - unfold timeout_step in E. destruct (s_phase s); try discriminate E; match type of E with Some ?w = _ => assert (Q : s' = w) by congruence end; rewrite Q; apply SP.
  - destruct (s_cb s); [discriminate E|]. unfold read_done in E. destruct (s_reads s); [discriminate E|]. match type of E with Some ?w = _ => assert (Q : s' = w) by congruence end. rewrite Q. apply (place_same c s); try reflexivity. exact P.
  - destruct (s_cb s); [discriminate E|]. unfold write_done in E. destruct (take_at i (s_writes s)) as [((off & b) & r)|]; [|discriminate E]. match type of E with Some ?w = _ => assert (Q : s' = w) by congruence end. rewrite Q. apply (place_same c s); try reflexivity. exact P.
  - destruct (s_cb s); [|discriminate E]. assert (Q : s' = cb_end s) by congruence. rewrite Q. apply (place_same c s); try reflexivity. exact P.
Qed.
Definition inv (c : cfg) (s : st) : Prop := data c s /\ count c s /\ place c s.
Lemma inv_initial c : fine c -> inv c (initial c).
Proof. intros F. split; [apply data_initial|]. split; [apply count_initial|apply place_initial; exact F]. Qed.
Lemma inv_step c l s s' : fine c -> inv c s -> step c l s = Some s' -> inv c s'.
Proof. intros F (D & C & P) E. split; [apply (data_step c l s); assumption|]. split; [apply (count_step c l s); assumption|apply (place_step c l s); assumption]. Qed.
Lemma inv_run c ls : forall s s', fine c -> inv c s -> run c ls s = Some s' -> inv c s'.
Proof. induction ls as [|l ls IH]; intros s s' F I E; cbn [run] in E; [assert (s' = s) by congruence; subst; exact I|]. destruct (step c l s) as [s1|] eqn:S1; [|discriminate E]. apply (IH s1); [exact F|apply (inv_step c l s); assumption|exact E]. Qed.
