From Coq Require Import ZifyNat.
From Verif Require Import Util Copy_model Copy_proofs.
Local Open Scope Z_scope.
Local Ltac Zify.zify_post_hook ::= Z.div_mod_to_equations.

(** * where the source is when the loop is over *)
Lemma ceil_ge a q k : 0 < q -> (k - 1) * q < a -> k <= (a + q - 1) / q.
Proof. intros Q H. apply Z.div_le_lower_bound; [exact Q|]. lia. Qed.
Lemma ceil_le a q k : 0 < q -> a <= k * q -> (a + q - 1) / q <= k.
Proof. intros Q H. assert ((a + q - 1) / q < k + 1); [|lia]. apply Z.div_lt_upper_bound; [exact Q|]. lia. Qed.
Definition stops (c : cfg) : Z := if c_to c =? 0 then zlen (c_src c) else Z.min (zlen (c_src c)) (seek c + c_chunk c * ((c_to c - seek c + c_chunk c - 1) / c_chunk c)).
Lemma final_pos c s : fine c -> place c s -> more c s = false -> c_to c = 0 \/ seek c <= c_to c -> s_pos s = stops c.
Proof.
  intros (F1 & F2) [(k & K0 & K1 & K2 & K3)] M T. unfold stops. set (q := c_chunk c) in *. set (cl := (c_to c - seek c + q - 1) / q).
  assert (GE : 0 < k -> c_to c <> 0 -> k <= cl). { intros A B. apply ceil_ge; [exact F1|]. destruct (K1 A); lia. }
  destruct (s_eof s) eqn:EO.
  - destruct (K3 eq_refl) as (A & B & D). rewrite B. destruct (Z.eqb_spec (c_to c) 0) as [|N]; [reflexivity|]. specialize (GE A N). assert (k * q <= cl * q) by (apply Z.mul_le_mono_nonneg_r; lia). lia.
  - destruct (K2 eq_refl) as (A & B). unfold more, at_end in M. rewrite EO in M. apply Bool.andb_false_iff in M. destruct (Z.eqb_spec (c_to c) 0) as [N|N].
    + cbn [orb] in M. destruct M as [M|M]; [|discriminate M]. apply Bool.negb_false_iff in M. destruct (c_lazy c); [discriminate M|]. lia.
    + cbn [orb] in M. assert (C0 : 0 <= cl) by (apply Z.div_pos; lia).
      assert (KC : k <= cl) by (destruct (Z.eq_dec k 0); [lia|apply GE; lia]). assert (KM : k * q <= cl * q) by (apply Z.mul_le_mono_nonneg_r; lia).
      destruct M as [M|M].
      * apply Bool.negb_false_iff in M. destruct (c_lazy c); [discriminate M|]. lia.
      * assert (LE : cl <= k) by (apply ceil_le; [exact F1|lia]). assert (cl = k) by lia. rewrite H. lia.
Qed.
Lemma done_ok c s : fine c -> inv c s -> ended s -> c_to c = 0 \/ seek c <= c_to c ->
  forall i, s_mem s i = if (c_dpos c <=? i) && (i <? c_dpos c + (stops c - seek c)) then nth_error (c_src c) (Z.to_nat (seek c + (i - c_dpos c))) else c_dest c i.
Proof.
  intros F ([D1 D2 D3 D4 D5] & C & P) E T i. assert (Q : quiet (s_phase s)) by (unfold quiet; destruct E; tauto). pose proof (n_quiet _ _ C Q) as I0.
  assert (M : more c s = false) by (apply (n_after _ _ C); intros G; destruct E as [E|E]; rewrite E in G; destruct G; discriminate). rewrite <- (final_pos c s F P M T).
  unfold in_flight in I0. assert (R : s_reads s = []) by (destruct (s_reads s); [reflexivity|cbn [length] in I0; lia]). assert (W : s_writes s = []) by (destruct (s_writes s); [reflexivity|cbn [length] in I0; lia]).
  destruct D2 as (n & N0 & N1 & N2 & _). rewrite R in N2. cbn [concat] in N2. change (zlen []) with 0 in N2. destruct ((c_dpos c <=? i) && (i <? c_dpos c + (s_pos s - seek c))) eqn:B.
  - apply Bool.andb_true_iff in B. destruct (D4 i ltac:(lia)) as [(w & WI & _)|X]; [rewrite W in WI; destruct WI|exact X].
  - apply Bool.andb_false_iff in B. apply D5. lia.
Qed.

(** * progress *)
Definition rank2 (p : phase) : Z := match p with Looping => 7 | Reading => 6 | Ending => 5 | Comparing => 4 | Waiting | Asleep | TimedOut => 3 | Last => 2 | LastAsleep => 1 | Done | Failed => 0 end.
Definition b2z (b : bool) : Z := if b then 1 else 0.
Definition weight (c : cfg) (s : st) : Z := 20 * (1 - b2z (s_eof s) + (zlen (c_src c) - s_pos s)) + 5 * Z.of_nat (length (s_reads s)) + 3 * Z.of_nat (length (s_writes s)) + b2z (s_cb s) + rank2 (s_phase s).
Lemma weight_pos c s : place c s -> 0 <= weight c s.
Proof.
  intros [(k & K0 & K1 & K2 & K3)]. unfold weight. assert (0 <= zlen (c_src c) - s_pos s) by (destruct (s_eof s); [destruct (K3 eq_refl)|destruct (K2 eq_refl)]; lia).
  assert (0 <= rank2 (s_phase s)) by (destruct (s_phase s); cbn; lia). unfold b2z. destruct (s_eof s), (s_cb s); lia.
Qed.
Lemma weight_phase c s p : weight c (set_phase p s) = weight c s - rank2 (s_phase s) + rank2 p.
Proof. unfold weight. cbn [set_phase s_eof s_pos s_reads s_writes s_cb s_phase]. lia. Qed.
Lemma weight_step c l s s' : fine c -> inv c s -> step c l s = Some s' -> weight c s' <= weight c s /\ (~ idle l s s' -> weight c s' < weight c s).
Proof.
  intros F (D & C & P) E.
  assert (ST : forall p, s' = set_phase p s -> rank2 p < rank2 (s_phase s) -> weight c s' <= weight c s /\ (~ idle l s s' -> weight c s' < weight c s)) by (intros p -> R; rewrite weight_phase; lia).
  assert (EQ : forall p, s' = set_phase p s -> rank2 p = rank2 (s_phase s) -> idle l s s' -> weight c s' <= weight c s /\ (~ idle l s s' -> weight c s' < weight c s)) by (intros p -> R I; rewrite weight_phase; split; [lia|contradiction]).
  destruct l; cbn [step] in E.
  - unfold main_step in E. destruct (s_phase s) eqn:PH.
    + destruct (more c s) eqn:M.
      * destruct (10 <? u32 (s_read s - s_write s)); match type of E with Some ?w = _ => assert (Q : s' = w) by congruence end.
        -- subst s'. split; [lia|]. intros N. exfalso. apply N. left. reflexivity.
        -- apply (ST _ Q). cbn. lia.
      * match type of E with Some ?w = _ => assert (Q : s' = w) by congruence end. apply (ST _ Q). cbn. lia.
    + assert (Q : s' = issue c s) by congruence. destruct (n_reading _ _ C PH) as (_ & M). destruct (slice_issue c s F P M) as (EF & PL & P0 & LB). subst s'. unfold weight, issue. set (b := slice _ _ _) in *. cbn [s_eof s_pos s_reads s_writes s_cb s_phase]. rewrite PH, EF, app_length. cbn [length rank2 b2z]. destruct F as (F1 & F2).
      destruct (zlen b <? c_chunk c) eqn:SH; cbn [b2z]; lia.
    + match type of E with Some ?w = _ => assert (Q : s' = w) by congruence end. subst s'. unfold weight. cbn [s_eof s_pos s_reads s_writes s_cb s_phase]. rewrite PH. cbn [rank2]. lia.
    + match type of E with Some ?w = _ => assert (Q : s' = w) by congruence end. apply (ST _ Q). destruct (s_read s =? s_write s); cbn; lia.
    + match type of E with Some ?w = _ => assert (Q : s' = w) by congruence end. destruct (s_signal s); [apply (ST _ Q); cbn; lia|]. apply (EQ _ Q); [reflexivity|]. right. left. rewrite Q. repeat split; assumption.
    + destruct (s_signal s); [|discriminate E]. match type of E with Some ?w = _ => assert (Q : s' = w) by congruence end. apply (ST _ Q). cbn. lia.
    + match type of E with Some ?w = _ => assert (Q : s' = w) by congruence end. destruct (s_read s =? s_write s); [apply (ST _ Q); cbn; lia|]. apply (EQ _ Q); [reflexivity|]. right. right. right. rewrite Q. repeat split; assumption.
    + match type of E with Some ?w = _ => assert (Q : s' = w) by congruence end. apply (ST _ Q). destruct (s_signal s); cbn; lia.
    + destruct (s_signal s); [|discriminate E]. match type of E with Some ?w = _ => assert (Q : s' = w) by congruence end. apply (ST _ Q). cbn. lia.
    + discriminate E.
    + discriminate E.
  - unfold timeout_step in E. destruct (s_phase s) eqn:PH; try discriminate E; match type of E with Some ?w = _ => assert (Q : s' = w) by congruence end; [|apply (ST _ Q); cbn; lia]. apply (EQ _ Q); [reflexivity|]. right. right. left. rewrite Q. repeat split; assumption.
  - destruct (s_cb s) eqn:CB; [discriminate E|]. unfold read_done in E. destruct (s_reads s) as [|b r] eqn:R; [discriminate E|]. match type of E with Some ?w = _ => assert (Q : s' = w) by congruence end. subst s'. unfold weight. cbn [s_eof s_pos s_reads s_writes s_cb s_phase]. rewrite R, app_length. cbn [length]. rewrite ?CB. lia.
  - destruct (s_cb s) eqn:CB; [discriminate E|]. unfold write_done in E. destruct (take_at i (s_writes s)) as [((off & b) & r)|] eqn:T; [|discriminate E]. match type of E with Some ?w = _ => assert (Q : s' = w) by congruence end. subst s'. destruct (take_spec _ _ _ _ T) as (TL & _). unfold weight. cbn [s_eof s_pos s_reads s_writes s_cb s_phase]. rewrite TL, CB. cbn [b2z]. lia.
  - destruct (s_cb s) eqn:CB; [|discriminate E]. assert (Q : s' = cb_end s) by congruence. subst s'. unfold weight, cb_end. cbn [s_eof s_pos s_reads s_writes s_cb s_phase]. rewrite CB. cbn [b2z]. lia.
Qed.
Lemma weight_initial c : weight c (initial c) = 20 * (1 + (zlen (c_src c) - seek c)) + 7.
Proof. unfold weight. cbn [initial s_eof s_pos s_reads s_writes s_cb s_phase length b2z rank2]. lia. Qed.
Lemma runs_inv c n s s' : fine c -> inv c s -> runs c n s s' -> inv c s' /\ Z.of_nat n + weight c s' <= weight c s.
Proof.
  intros F I R. induction R as [s|n l s s' s'' R IH E D|n l s s' s'' R IH E D].
  - split; [exact I|lia].
  - destruct (IH I) as (I2 & W). destruct (weight_step c l s' s'' F I2 E) as (W2 & _). split; [apply (inv_step c l s'); assumption|lia].
  - destruct (IH I) as (I2 & W). destruct (weight_step c l s' s'' F I2 E) as (_ & W2). specialize (W2 D). split; [apply (inv_step c l s'); assumption|lia].
Qed.
Lemma enabled c s : fine c -> inv c s -> ~ ended s -> exists l s', step c l s = Some s' /\ weight c s' < weight c s.
Proof.
  intros F I NE. pose proof I as (D & C & P).
  assert (G : forall l s', step c l s = Some s' -> ~ idle l s s' -> exists l s', step c l s = Some s' /\ weight c s' < weight c s) by (intros l s' E N; exists l, s'; split; [exact E|apply (weight_step c l s s' F I E); exact N]).
  destruct (s_cb s) eqn:CB.
  { apply (G CbEnd (cb_end s)); [cbn [step]; rewrite CB; reflexivity|]. intros [H|[(H & _)|[(H & _)|(H & _)]]]; try discriminate H. apply (f_equal s_cb) in H. rewrite CB in H. discriminate H. }
  destruct (s_reads s) as [|b r] eqn:R.
  2:{ eapply (G ReadDone). { cbn [step]. rewrite CB. unfold read_done. rewrite R. reflexivity. } intros [H|[(H & _)|[(H & _)|(H & _)]]]; try discriminate H. apply (f_equal (fun x => length (s_reads x))) in H. cbn [s_reads] in H. rewrite R in H. cbn [length] in H. lia. }
  destruct (s_writes s) as [|(off & b) r] eqn:W.
  2:{ eapply (G (WriteDone 0)). { cbn [step]. rewrite CB. unfold write_done. rewrite W. reflexivity. } intros [H|[(H & _)|[(H & _)|(H & _)]]]; try discriminate H. apply (f_equal (fun x => length (s_writes x))) in H. cbn [s_writes] in H. rewrite W in H. cbn [length] in H. lia. }
  assert (I0 : in_flight s = 0%nat) by (unfold in_flight; rewrite R, W; reflexivity). pose proof (flight_zero s c C) as Z0. rewrite I0 in Z0. change (Z.of_nat 0 =? 0) with true in Z0. pose proof (n_diff _ _ C) as ND. rewrite I0 in ND.
  assert (GP : forall p, main_step c s = Some (set_phase p s) -> rank2 p < rank2 (s_phase s) -> exists l s', step c l s = Some s' /\ weight c s' < weight c s) by (intros p E RK; exists Main, (set_phase p s); split; [exact E|rewrite weight_phase; lia]).
  destruct (s_phase s) eqn:PH.
  - destruct (more c s) eqn:M; [apply (GP Reading)|apply (GP Ending)]; try (cbn; lia); unfold main_step; rewrite PH, M; [rewrite ND|]; reflexivity.
  - eapply (G Main); [cbn [step]; unfold main_step; rewrite PH; reflexivity|]. intros [H|[(_ & H & _)|[(H & _)|(_ & H & _)]]]; try discriminate H; try congruence. apply (f_equal s_phase) in H. rewrite PH in H. discriminate H.
  - eapply (G Main); [cbn [step]; unfold main_step; rewrite PH; reflexivity|]. intros [H|[(_ & H & _)|[(H & _)|(_ & H & _)]]]; try discriminate H; try congruence. apply (f_equal s_phase) in H. rewrite PH in H. discriminate H.
  - apply (GP Done); [unfold main_step; rewrite PH, Z0; reflexivity|cbn; lia].
  - destruct (n_cb _ _ C (or_introl PH) I0) as [H|SG]; [congruence|]. apply (GP Done); [unfold main_step; rewrite PH, SG; reflexivity|cbn; lia].
  - destruct (n_cb _ _ C (or_intror (or_introl PH)) I0) as [H|SG]; [congruence|]. apply (GP Done); [unfold main_step; rewrite PH, SG; reflexivity|cbn; lia].
  - apply (GP Last); [unfold main_step; rewrite PH, Z0; reflexivity|cbn; lia].
  - destruct (s_signal s) eqn:SG; [apply (GP Done)|apply (GP LastAsleep)]; try (cbn; lia); unfold main_step; rewrite PH, SG; reflexivity.
  - exists Timeout, (set_phase Failed s). split; [cbn [step]; unfold timeout_step; rewrite PH; reflexivity|]. rewrite weight_phase, PH. cbn. lia.
  - exfalso. apply NE. left. exact PH.
  - exfalso. apply NE. right. exact PH.
Qed.
Lemma run_app c a : forall b s, run c (a ++ b) s = match run c a s with Some s => run c b s | None => None end.
Proof. induction a as [|l a IH]; intros b s; [reflexivity|]. rewrite <- app_comm_cons. cbn [run]. destruct (step c l s); [apply IH|reflexivity]. Qed.
Lemma reaches_end c n : forall s, fine c -> inv c s -> (Z.to_nat (weight c s) <= n)%nat -> exists ls s', (length ls <= n)%nat /\ run c ls s = Some s' /\ ended s'.
Proof.
  induction n as [|n IH]; intros s F I W.
  - assert (E : s_phase s = Done \/ s_phase s = Failed \/ ~ ended s) by (unfold ended; destruct (s_phase s); auto; right; right; intros [H|H]; discriminate H). destruct E as [E|[E|E]]; [exists [], s; split; [cbn; lia|]; split; [reflexivity|left; exact E]|exists [], s; split; [cbn; lia|]; split; [reflexivity|right; exact E]|].
    destruct (enabled c s F I E) as (l & s' & S1 & S2). pose proof (inv_step c l s s' F I S1) as (_ & _ & P). pose proof (weight_pos c s' P). lia.
  - assert (E : s_phase s = Done \/ s_phase s = Failed \/ ~ ended s) by (unfold ended; destruct (s_phase s); auto; right; right; intros [H|H]; discriminate H). destruct E as [E|[E|E]]; [exists [], s; split; [cbn; lia|]; split; [reflexivity|left; exact E]|exists [], s; split; [cbn; lia|]; split; [reflexivity|right; exact E]|].
    destruct (enabled c s F I E) as (l & s' & S1 & S2). pose proof (inv_step c l s s' F I S1) as I2. pose proof (weight_pos c s' (proj2 (proj2 I2))). destruct (IH s' F I2 ltac:(lia)) as (ls & s'' & L & R & EN). exists (l :: ls), s''. split; [cbn [length]; lia|]. split; [cbn [run]; rewrite S1; exact R|exact EN].
Qed.

(** * schedules which go wrong *)
Definition clean (s : st) : Prop := s_phase s = Looping /\ s_reads s = [] /\ s_writes s = [] /\ s_cb s = false.
(** one chunk, up to the write *)
Lemma one_chunk c s : fine c -> inv c s -> clean s -> more c s = true -> exists s1, run c [Main; Main; ReadDone; WriteDone 0] s = Some s1 /\ s_phase s1 = Looping /\ s_reads s1 = [] /\ s_writes s1 = [] /\ s_cb s1 = true.
Proof.
  intros F I (C1 & C2 & C3 & C4) M. pose proof (n_diff _ _ (proj1 (proj2 I))) as ND. unfold in_flight in ND. rewrite C2, C3 in ND. cbn [length Nat.add] in ND.
  set (b := slice (c_src c) (s_pos s) (c_chunk c)).
  assert (E1 : step c Main s = Some (set_phase Reading s)). { cbn [step]. unfold main_step. rewrite C1, M, ND. reflexivity. }
  assert (E2 : step c Main (set_phase Reading s) = Some (issue c s)) by reflexivity.
  assert (E3 : exists s3, step c ReadDone (issue c s) = Some s3 /\ s_phase s3 = Looping /\ s_reads s3 = [] /\ s_writes s3 = [(s_next s, b)] /\ s_cb s3 = false).
  { cbn [step]. unfold issue at 1. cbn [s_cb]. rewrite C4. unfold read_done, issue. cbn [s_reads s_phase s_pos s_eof s_next s_writes s_mem s_read s_write s_wait_end s_signal s_cb]. rewrite C2, C3, C4. eexists. split; [reflexivity|]. repeat split; reflexivity. }
  destruct E3 as (s3 & E3 & A1 & A2 & A3 & A4).
  assert (E4 : exists s4, step c (WriteDone 0) s3 = Some s4 /\ s_phase s4 = Looping /\ s_reads s4 = [] /\ s_writes s4 = [] /\ s_cb s4 = true).
  { cbn [step]. rewrite A4. unfold write_done. rewrite A3. cbn [take_at]. eexists. split; [reflexivity|]. cbn [s_phase s_reads s_writes s_cb]. repeat split; assumption. }
  destruct E4 as (s4 & E4 & B). exists s4. split; [cbn [run]; rewrite E1, E2, E3, E4; reflexivity|exact B].
Qed.
Lemma early c n : forall s, fine c -> inv c s -> clean s -> more c s = true -> (Z.to_nat (weight c s) <= n)%nat -> exists ls s', run c ls s = Some s' /\ returned s' /\ touches s'.
Proof.
  induction n as [|n IH]; intros s F I CL M W.
  - destruct (enabled c s F I) as (l & s' & S1 & S2); [destruct CL as (CL & _); intros [H|H]; congruence|]. pose proof (weight_pos c s' (proj2 (proj2 (inv_step c l s s' F I S1)))). lia.
  - destruct (one_chunk c s F I CL M) as (s1 & R1 & A1 & A2 & A3 & A4). pose proof (inv_run c _ s s1 F I R1) as I1. destruct (more c s1) eqn:M1.
    + assert (S2 : step c CbEnd s1 = Some (cb_end s1)) by (cbn [step]; rewrite A4; reflexivity). pose proof (inv_step c _ _ _ F I1 S2) as I2.
      assert (WD : weight c (cb_end s1) < weight c s).
      { clear IH. pose proof CL as (CL1 & _). cbn [run] in R1. destruct (step c Main s) as [t1|] eqn:E1; [|discriminate R1]. destruct (step c Main t1) as [t2|] eqn:E2; [|discriminate R1]. destruct (step c ReadDone t2) as [t3|] eqn:E3; [|discriminate R1]. destruct (step c (WriteDone 0) t3) as [t4|] eqn:E4; [|discriminate R1]. assert (t4 = s1) by congruence. subst t4.
        pose proof (inv_step c _ _ _ F I E1) as J1. pose proof (inv_step c _ _ _ F J1 E2) as J2. pose proof (inv_step c _ _ _ F J2 E3) as J3. pose proof (weight_step c _ _ _ F I E1) as (W1 & _). pose proof (weight_step c _ _ _ F J1 E2) as (W2 & _). pose proof (weight_step c _ _ _ F J2 E3) as (W3 & _). pose proof (weight_step c _ _ _ F J3 E4) as (W4 & _).
        assert (W5 : weight c (cb_end s1) < weight c s1) by (apply (weight_step c _ _ _ F I1 S2); intros [H|[(H & _)|[(H & _)|(H & _)]]]; try discriminate H; apply (f_equal s_cb) in H; rewrite A4 in H; discriminate H). lia. }
      destruct (IH (cb_end s1) F I2) as (ls & s' & R & D1 & D2).
      * repeat split; assumption.
      * exact M1.
      * lia.
      * exists ([Main; Main; ReadDone; WriteDone 0] ++ CbEnd :: ls), s'. rewrite run_app, R1. split; [|split; assumption]. change (run c (CbEnd :: ls) s1) with (match step c CbEnd s1 with Some s => run c ls s | None => None end). rewrite S2. exact R.
    + exists ([Main; Main; ReadDone; WriteDone 0] ++ [Main; Main; Main]). eexists. rewrite run_app, R1. pose proof (flight_zero s1 c (proj1 (proj2 I1))) as Z0. unfold in_flight in Z0. rewrite A2, A3 in Z0. change (Z.of_nat (length (@nil (list Z)) + length (@nil (Z * list Z))) =? 0) with true in Z0.
      split; [|split].
      * cbn [run step]. unfold main_step at 1. rewrite A1, M1. unfold main_step at 1. cbn [set_phase s_phase s_pos s_eof s_reads s_next s_writes s_mem s_read s_write s_wait_end s_signal s_cb]. unfold main_step. cbn [s_phase s_read s_write]. rewrite Z0. reflexivity.
      * reflexivity.
      * exact A4.
Qed.
Lemma late c n : forall s, fine c -> inv c s -> clean s -> more c s = true -> (Z.to_nat (weight c s) <= n)%nat -> exists ls s', run c ls s = Some s' /\ s_phase s' = Failed.
Proof.
  induction n as [|n IH]; intros s F I CL M W.
  - destruct (enabled c s F I) as (l & s' & S1 & S2); [destruct CL as (CL & _); intros [H|H]; congruence|]. pose proof (weight_pos c s' (proj2 (proj2 (inv_step c l s s' F I S1)))). lia.
  - pose proof CL as (C1 & C2 & C3 & C4). pose proof (n_diff _ _ (proj1 (proj2 I))) as ND. unfold in_flight in ND. rewrite C2, C3 in ND. cbn [length Nat.add] in ND. pose proof (n_loop _ _ (proj1 (proj2 I)) (or_introl (or_introl C1))) as (WE & SG).
    set (s2 := issue c s).
    assert (E1 : step c Main s = Some (set_phase Reading s)). { cbn [step]. unfold main_step. rewrite C1, M, ND. reflexivity. }
    assert (E2 : step c Main (set_phase Reading s) = Some s2) by reflexivity.
    pose proof (inv_step c _ _ _ F I E1) as I1. pose proof (inv_step c _ _ _ F I1 E2) as I2. pose proof (weight_step c _ _ _ F I1 E2) as (W2 & _). assert (W1 : weight c (set_phase Reading s) < weight c s) by (rewrite weight_phase, C1; cbn; lia).
    set (b := slice (c_src c) (s_pos s) (c_chunk c)) in *.
    set (s3 := mkSt Looping (s_pos s2) (s_eof s2) [] (s_next s + zlen b) [(s_next s, b)] (s_mem s) (s_read s2) (s_write s) false false false).
    assert (E3 : step c ReadDone s2 = Some s3). { cbn [step]. unfold s2, issue at 1. cbn [s_cb]. rewrite C4. unfold read_done, issue. cbn [s_reads s_phase s_pos s_eof s_next s_writes s_mem s_read s_write s_wait_end s_signal s_cb]. rewrite C2, C3, WE, SG, C4. reflexivity. }
    pose proof (inv_step c _ _ _ F I2 E3) as I3. pose proof (weight_step c _ _ _ F I2 E3) as (W3 & _).
    destruct (more c s3) eqn:M3.
    + set (s4 := mkSt Looping (s_pos s2) (s_eof s2) [] (s_next s + zlen b) [] (set_bytes (s_next s) b (s_mem s)) (s_read s2) (u32 (s_write s + 1)) false false true).
      assert (E4 : step c (WriteDone 0) s3 = Some s4) by reflexivity. pose proof (inv_step c _ _ _ F I3 E4) as I4. pose proof (weight_step c _ _ _ F I3 E4) as (W4 & _).
      assert (E5 : step c CbEnd s4 = Some (cb_end s4)) by reflexivity. pose proof (inv_step c _ _ _ F I4 E5) as I5. pose proof (weight_step c _ _ _ F I4 E5) as (W5 & _).
      destruct (IH (cb_end s4) F I5) as (ls & s' & R & D).
      * repeat split; reflexivity.
      * exact M3.
      * lia.
      * exists (Main :: Main :: ReadDone :: WriteDone 0 :: CbEnd :: ls), s'. split; [|exact D]. cbn [run]. rewrite E1, E2, E3, E4, E5. exact R.
    + (* the last chunk *)
      set (mk := fun p w m k wr => mkSt p (s_pos s2) (s_eof s2) [] (s_next s + zlen b) w m (s_read s2) wr true false k).
      assert (NZ : (s_read s2 =? s_write s) = false). { pose proof (flight_zero s3 c (proj1 (proj2 I3))) as Z0. unfold in_flight in Z0. cbn [s3 s_reads s_writes length s_read s_write] in Z0. rewrite Z0. reflexivity. }
      assert (E4 : step c Main s3 = Some (set_phase Ending s3)). { cbn [step]. unfold main_step. cbn [s3 s_phase]. fold s3. rewrite M3. reflexivity. }
      assert (E5 : step c Main (set_phase Ending s3) = Some (mk Comparing [(s_next s, b)] (s_mem s) false (s_write s))) by reflexivity.
      assert (E6 : step c Main (mk Comparing [(s_next s, b)] (s_mem s) false (s_write s)) = Some (mk Waiting [(s_next s, b)] (s_mem s) false (s_write s))). { cbn [step]. unfold main_step. cbn [mk s_phase s_read s_write]. rewrite NZ. reflexivity. }
      assert (E7 : step c Main (mk Waiting [(s_next s, b)] (s_mem s) false (s_write s)) = Some (mk Asleep [(s_next s, b)] (s_mem s) false (s_write s))) by reflexivity.
      assert (E8 : step c Timeout (mk Asleep [(s_next s, b)] (s_mem s) false (s_write s)) = Some (mk TimedOut [(s_next s, b)] (s_mem s) false (s_write s))) by reflexivity.
      set (m' := set_bytes (s_next s) b (s_mem s)). set (w' := u32 (s_write s + 1)).
      assert (E9 : step c (WriteDone 0) (mk TimedOut [(s_next s, b)] (s_mem s) false (s_write s)) = Some (mk TimedOut [] m' true w')) by reflexivity.
      pose proof (inv_step c _ _ _ F I3 E4) as I4. pose proof (inv_step c _ _ _ F I4 E5) as I5. pose proof (inv_step c _ _ _ F I5 E6) as I6. pose proof (inv_step c _ _ _ F I6 E7) as I7. pose proof (inv_step c _ _ _ F I7 E8) as I8. pose proof (inv_step c _ _ _ F I8 E9) as I9.
      assert (EZ : (s_read s2 =? w') = true). { pose proof (flight_zero _ c (proj1 (proj2 I9))) as Z0. unfold in_flight in Z0. cbn [mk s_reads s_writes length s_read s_write] in Z0. exact Z0. }
      assert (E10 : step c Main (mk TimedOut [] m' true w') = Some (mk Last [] m' true w')). { cbn [step]. unfold main_step. cbn [mk s_phase s_read s_write]. rewrite EZ. reflexivity. }
      assert (E11 : step c Main (mk Last [] m' true w') = Some (mk LastAsleep [] m' true w')) by reflexivity.
      exists [Main; Main; ReadDone; Main; Main; Main; Main; Timeout; WriteDone 0; Main; Main; Timeout]. eexists. split; [cbn [run]; rewrite E1, E2, E3, E4, E5, E6, E7, E8, E9, E10, E11; reflexivity|reflexivity].
Qed.
