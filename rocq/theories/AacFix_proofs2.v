(** Proofs about the AAC time correction in doubles (AacFix_model). *)
From Coq Require Import ZArith List Lia Bool Reals Lra.
From Flocq Require Import Core BinarySingleNaN Relative.
From Verif Require Import Double_model Double_proofs AacFix_model.
Import ListNotations.
Local Open Scope R_scope.
Local Notation rnd := (round radix2 (FLT_exp (3 - 1024 - 53) 53) (round_mode mode_NE)).
#[local] Instance vexp : Valid_exp (FLT_exp (3 - 1024 - 53) 53). Proof. apply FLT_exp_valid. reflexivity. Qed.

Lemma rnd_half : forall x, Rabs x < IZR (2 ^ 53) -> x - / 2 <= rnd x <= x + / 2.
Proof.
  intros x H. assert (Q : Rabs (rnd x - x) <= / 2 * ulp radix2 (FLT_exp (3 - 1024 - 53) 53) x) by (apply (error_le_half_ulp radix2 (FLT_exp (3 - 1024 - 53) 53) (fun x => negb (Z.even x)) x)).
  assert (U : ulp radix2 (FLT_exp (3 - 1024 - 53) 53) x <= 1).
  { destruct (Req_dec x 0) as [->|NZ].
    - unfold ulp. rewrite Req_bool_true by reflexivity. destruct (negligible_exp (FLT_exp (3 - 1024 - 53) 53)) as [n|] eqn:E; [|lra]. change 1 with (bpow radix2 0). apply bpow_le. destruct (negligible_exp_spec (FLT_exp (3 - 1024 - 53) 53)) as [|m Hm]; [discriminate|]. injection E as <-. unfold FLT_exp in *. lia.
    - rewrite ulp_neq_0 by exact NZ. change 1 with (bpow radix2 0). apply bpow_le. unfold cexp, FLT_exp.
      assert (M : (mag radix2 x <= 53)%Z) by (apply mag_le_bpow; [exact NZ|exact H]). lia. }
  assert (Rabs (rnd x - x) <= / 2) by lra. apply Rabs_le_inv in H0. lra.
Qed.
Definition fin (x : double) (r : R) : Prop := is_finite x = true /\ B2R x = r.
Lemma dadd_ok : forall x y a b, fin x a -> fin y b -> Rabs (a + b) <= IZR (2 ^ 60) -> fin (dadd x y) (rnd (a + b)).
Proof.
  intros x y a b [X1 X2] [Y1 Y2] H. pose proof (Bplus_correct 53 1024 prec53 prec53_1024 mode_NE x y X1 Y1) as C. rewrite X2, Y2 in C. change (SpecFloat.fexp 53 1024) with (FLT_exp (3 - 1024 - 53) 53) in C.
  rewrite lt_emax in C; [destruct C as [C1 [C2 _]]; split; assumption|]. eapply Rle_trans; [exact H|]. rewrite bp200. apply IZR_le. lia.
Qed.
Lemma dsub_ok : forall x y a b, fin x a -> fin y b -> Rabs (a - b) <= IZR (2 ^ 60) -> fin (dsub x y) (rnd (a - b)).
Proof.
  intros x y a b [X1 X2] [Y1 Y2] H. pose proof (Bminus_correct 53 1024 prec53 prec53_1024 mode_NE x y X1 Y1) as C. rewrite X2, Y2 in C. change (SpecFloat.fexp 53 1024) with (FLT_exp (3 - 1024 - 53) 53) in C.
  rewrite lt_emax in C; [destruct C as [C1 [C2 _]]; split; assumption|]. eapply Rle_trans; [exact H|]. rewrite bp200. apply IZR_le. lia.
Qed.
Lemma dlt_ok : forall x y a b, fin x a -> fin y b -> dlt x y = Rlt_bool a b.
Proof. intros x y a b [X1 X2] [Y1 Y2]. unfold dlt. rewrite Bltb_correct by assumption. rewrite X2, Y2. reflexivity. Qed.
Lemma deq_ok : forall x y a b, fin x a -> fin y b -> deq x y = Req_bool a b.
Proof. intros x y a b [X1 X2] [Y1 Y2]. unfold deq. rewrite Beqb_correct by assumption. rewrite X2, Y2. reflexivity. Qed.
Lemma dle_ok : forall x y a b, fin x a -> fin y b -> dle x y = Rle_bool a b.
Proof. intros x y a b [X1 X2] [Y1 Y2]. unfold dle. rewrite Bleb_correct by assumption. rewrite X2, Y2. reflexivity. Qed.
Lemma dbl_fin : forall z, (0 <= z <= 2 ^ 53)%Z -> fin (dbl z) (IZR z).
Proof. intros z H. destruct (dbl_ok z ltac:(lia)) as [A B]. split; assumption. Qed.
Lemma trunc_ok : forall x a, fin x a -> 0 <= a -> IZR (dtrunc x) <= a < IZR (dtrunc x) + 1 /\ (0 <= dtrunc x)%Z.
Proof.
  intros x a [X1 X2] H. pose proof (Btrunc_correct 53 1024 eq_refl x) as T. change (@Btrunc 53 1024 x) with (dtrunc x) in T. rewrite X2, round_FIX_IZR in T. apply eq_IZR in T. rewrite Ztrunc_floor in T by exact H.
  rewrite T. split; [split; [apply Zfloor_lb|apply Zfloor_ub]|apply Zfloor_lub; exact H].
Qed.
Lemma trunc_int : forall z, (0 <= z <= 2 ^ 53)%Z -> dtrunc (dbl z) = z.
Proof.
  intros z H. destruct (trunc_ok _ _ (dbl_fin z H)) as [[A B] _]; [apply IZR_le; lia|]. apply le_IZR in A. rewrite <- plus_IZR in B. apply lt_IZR in B. lia.
Qed.
(** durations *)
Lemma duration : forall n rate, (1024 <= n <= 1025)%Z -> (0 < rate <= 1000000)%Z ->
  exists r, fin (dmul (ddiv (dbl n) (dbl rate)) (dbl 10000000)) r /\ Rabs (r - IZR (n * 10000000) / IZR rate) <= / 8.
Proof.
  intros n rate Hn Hr. destruct (dbl_fin n ltac:(lia)) as [A2 A1]. destruct (dbl_fin rate ltac:(lia)) as [B2 B1]. destruct (dbl_fin 10000000 ltac:(lia)) as [C2 C1].
  assert (Rr : 1 <= IZR rate <= 1000000) by (split; apply IZR_le; lia). assert (Rn : 1024 <= IZR n <= 1025) by (split; apply IZR_le; lia).
  pose proof (Bdiv_correct 53 1024 prec53 prec53_1024 mode_NE (dbl n) (dbl rate)) as Q. rewrite A1, B1 in Q. specialize (Q ltac:(lra)). change (SpecFloat.fexp 53 1024) with (FLT_exp (3 - 1024 - 53) 53) in Q.
  set (q := IZR n / IZR rate) in *.
  assert (Iv : / 1000000 <= / IZR rate <= 1). { split; [apply Rinv_le; lra|]. rewrite <- Rinv_1. apply Rinv_le; lra. }
  assert (Hq : / 1000 <= q <= 1025). { unfold q, Rdiv. split; nra. }
  rewrite lt_emax in Q by (rewrite Rabs_pos_eq by lra; rewrite bp200; apply Rle_trans with 1025; [lra|apply IZR_le; lia]). destruct Q as [Q1 [Q2 _]]. fold (ddiv (dbl n) (dbl rate)) in Q1, Q2.
  assert (Bp : bpow radix2 (-900) <= / 1000). { apply Rle_trans with (bpow radix2 (-10)); [apply bpow_le; lia|]. change (bpow radix2 (-10)) with (/ 1024). apply Rinv_le; lra. }
  destruct (rel q ltac:(lra) ltac:(lra)) as [e1 [E1 E1']].
  assert (U : / IZR (2 ^ 53) <= / 1000000000000000) by (apply Rinv_le; [lra|apply IZR_le; lia]).
  apply Rabs_le_inv in E1.
  assert (V : / 2000 <= rnd q <= 1026) by (rewrite E1'; nra).
  pose proof (Bmult_correct 53 1024 prec53 prec53_1024 mode_NE (ddiv (dbl n) (dbl rate)) (dbl 10000000)) as M. rewrite Q1, C1 in M. change (SpecFloat.fexp 53 1024) with (FLT_exp (3 - 1024 - 53) 53) in M.
  rewrite lt_emax in M by (rewrite Rabs_pos_eq by nra; rewrite bp200; apply Rle_trans with 10260000000; [nra|apply IZR_le; lia]). destruct M as [M1 [M2 _]]. fold (dmul (ddiv (dbl n) (dbl rate)) (dbl 10000000)) in M1, M2. rewrite Q2, A2, C2 in M2. cbn [andb] in M2.
  destruct (rel (rnd q * 10000000) ltac:(nra) ltac:(nra)) as [e2 [E2 E2']]. apply Rabs_le_inv in E2.
  eexists. split; [split; [exact M2|exact M1]|]. rewrite E2', E1'. replace (IZR (n * 10000000) / IZR rate) with (q * 10000000) by (unfold q, Rdiv; rewrite mult_IZR; ring).
  replace (q * (1 + e1) * 10000000 * (1 + e2) - q * 10000000) with (q * 10000000 * (e1 + e2 + e1 * e2)) by ring.
  assert (H : - / 100000000000000 <= e1 + e2 + e1 * e2 <= / 100000000000000) by nra. set (w := e1 + e2 + e1 * e2) in *. apply Rabs_le. split; nra.
Qed.
(** ** One sample *)
Definition Ok (s : dfixer) (mn mx prev : R) : Prop := fin (f_min s) mn /\ fin (f_max s) mx /\ fin (f_prev s) prev.
Lemma rnd_mono : forall a b, a <= b -> rnd a <= rnd b. Proof. intros a b H. apply round_le; [exact vexp|apply valid_rnd_round_mode|exact H]. Qed.
Lemma rnd_id : forall x a, fin x a -> rnd a = a.
Proof. intros x a [H1 H2]. apply round_generic; [apply valid_rnd_round_mode|]. rewrite <- H2. apply generic_format_B2R. Qed.
Lemma step_next : forall s mn mx prev z, Ok s mn mx prev -> 0 < mn -> mn <= mx -> mx <= 2 ^ 34 -> 0 <= prev < IZR (2 ^ 52) -> prev <> 2147483647 -> (0 <= z < 2 ^ 52)%Z ->
  exists o, fin (fst (dfix s (dbl z))) o /\ Ok (snd (dfix s (dbl z))) mn mx o /\ prev + mn - / 2 <= o /\ IZR z - mx - / 2 <= o.
Proof.
  intros s mn mx prev z [Fm [Fx Fp]] H0 H1 H2 Hp N Hz. assert (Rz : 0 <= IZR z < IZR (2 ^ 52)) by (split; [apply IZR_le|apply IZR_lt]; lia).
  pose proof (dbl_fin z ltac:(lia)) as Fz. assert (P34 : (2 : R) ^ 34 = 17179869184) by (cbn; lra). rewrite P34 in H2.
  change (IZR (2 ^ 52)) with 4503599627370496 in *.
  unfold dfix, fix_time. rewrite (deq_ok _ _ _ _ (dbl_fin 2147483647 ltac:(lia)) Fp). rewrite Req_bool_false by (intro Q; apply N; symmetry; exact Q).
  pose proof (dsub_ok _ _ _ _ Fz Fp) as Fd. specialize (Fd ltac:(change (IZR (2 ^ 60)) with 1152921504606846976; apply Rabs_le; lra)).
  rewrite (dle_ok _ _ _ _ Fx Fd).
  (* the last part *)
  assert (Last : forall time error o, fin time o -> prev + mn - / 2 <= o -> o <= IZR (2 ^ 53) - 1 ->
    exists o', fin (fst (let time := if dlt (f_max s) (dsub (dbl z) time) || dlt (f_max s) (dsub time (dbl z)) then (if dlt time (dbl z) then dbl z else time) else time in (time, mkF (f_min s) (f_max s) time error))) o' /\
      Ok (snd (let time := if dlt (f_max s) (dsub (dbl z) time) || dlt (f_max s) (dsub time (dbl z)) then (if dlt time (dbl z) then dbl z else time) else time in (time, mkF (f_min s) (f_max s) time error))) mn mx o' /\ prev + mn - / 2 <= o' /\ IZR z - mx - / 2 <= o').
  { intros time error o Ft L U. change (IZR (2 ^ 53)) with 9007199254740992 in U. cbv zeta. cbn [fst snd].
    pose proof (dsub_ok _ _ _ _ Fz Ft ltac:(change (IZR (2 ^ 60)) with 1152921504606846976; apply Rabs_le; lra)) as S1. pose proof (dsub_ok _ _ _ _ Ft Fz ltac:(change (IZR (2 ^ 60)) with 1152921504606846976; apply Rabs_le; lra)) as S2.
    rewrite (dlt_ok _ _ _ _ Fx S1), (dlt_ok _ _ _ _ Fx S2), (dlt_ok _ _ _ _ Ft Fz).
    assert (Ht : rnd (IZR z - o) <= mx -> IZR z - mx - / 2 <= o).
    { intro Q. destruct (rnd_half (IZR z - o)) as [R1 R2]; [change (IZR (2 ^ 53)) with 9007199254740992; apply Rabs_def1; lra|]. lra. }
    destruct (Rlt_bool_spec mx (rnd (IZR z - o))) as [G|G]; cbn [orb].
    - destruct (Rlt_bool_spec o (IZR z)) as [K|K].
      + exists (IZR z). split; [exact Fz|]. split; [split; [exact Fm|split; [exact Fx|exact Fz]]|]. lra.
      + exists o. split; [exact Ft|]. split; [split; [exact Fm|split; [exact Fx|exact Ft]]|]. lra.
    - specialize (Ht G). destruct (Rlt_bool mx (rnd (o - IZR z))).
      + destruct (Rlt_bool_spec o (IZR z)) as [K|K].
        * exists (IZR z). split; [exact Fz|]. split; [split; [exact Fm|split; [exact Fx|exact Fz]]|]. lra.
        * exists o. split; [exact Ft|]. split; [split; [exact Fm|split; [exact Fx|exact Ft]]|]. lra.
      + exists o. split; [exact Ft|]. split; [split; [exact Fm|split; [exact Fx|exact Ft]]|]. lra. }
  pose proof (dadd_ok _ _ _ _ Fp Fx ltac:(change (IZR (2 ^ 60)) with 1152921504606846976; apply Rabs_le; lra)) as Ax. pose proof (dadd_ok _ _ _ _ Fp Fm ltac:(change (IZR (2 ^ 60)) with 1152921504606846976; apply Rabs_le; lra)) as Am.
  destruct (rnd_half (prev + mx)) as [X1 X2]; [change (IZR (2 ^ 53)) with 9007199254740992; apply Rabs_def1; lra|]. destruct (rnd_half (prev + mn)) as [N1 N2]; [change (IZR (2 ^ 53)) with 9007199254740992; apply Rabs_def1; lra|].
  destruct (Rle_bool mx (rnd (IZR z - prev))).
  - apply (Last _ _ _ Ax); change (IZR (2 ^ 53)) with 9007199254740992; lra.
  - cbv zeta. destruct (dle (dsub (f_max s) (f_min s)) _).
    + pose proof (dsub_ok _ _ _ _ Fx Fm ltac:(change (IZR (2 ^ 60)) with 1152921504606846976; apply Rabs_le; lra)) as Fc.
      assert (C0 : 0 <= rnd (mx - mn)). { rewrite <- (round_0 radix2 (FLT_exp (3 - 1024 - 53) 53) (round_mode mode_NE)). apply rnd_mono. lra. }
      destruct (rnd_half (mx - mn)) as [C1 C2]; [change (IZR (2 ^ 53)) with 9007199254740992; apply Rabs_def1; lra|].
      pose proof (dadd_ok _ _ _ _ Am Fc ltac:(change (IZR (2 ^ 60)) with 1152921504606846976; apply Rabs_le; lra)) as Ac.
      destruct (rnd_half (rnd (prev + mn) + rnd (mx - mn))) as [D1 D2]; [change (IZR (2 ^ 53)) with 9007199254740992; apply Rabs_def1; lra|].
      assert (M : rnd (prev + mn) <= rnd (rnd (prev + mn) + rnd (mx - mn))). { rewrite <- (rnd_id _ _ Am) at 1. apply rnd_mono. lra. }
      apply (Last _ _ _ Ac); change (IZR (2 ^ 53)) with 9007199254740992; lra.
    + apply (Last _ _ _ Am); change (IZR (2 ^ 53)) with 9007199254740992; lra.
Qed.
Lemma step_never : forall s mn mx z, Ok s mn mx 2147483647 -> (0 <= z < 2 ^ 52)%Z -> fst (dfix s (dbl z)) = dbl z /\ Ok (snd (dfix s (dbl z))) mn mx (IZR z).
Proof.
  intros s mn mx z [Fm [Fx Fp]] Hz. unfold dfix, fix_time. rewrite (deq_ok _ _ _ _ (dbl_fin 2147483647 ltac:(lia)) Fp). rewrite Req_bool_true by reflexivity. cbn [fst snd]. split; [reflexivity|]. split; [exact Fm|]. split; [exact Fx|apply dbl_fin; lia].
Qed.
(** ** One stream *)
Definition dec_of (c : call) (comp : Z) : Z := if (c_dec c =? c_comp c)%Z then comp else c_dec c.
Fixpoint run1 (f : dfixer) (l : list call) : list call :=
  match l with [] => [] | c :: l => let r := dfix f (dbl (c_comp c)) in mkC (c_stream c) (dtrunc (fst r)) (dec_of c (dtrunc (fst r))) :: run1 (snd r) l end.
Lemma dec_same : forall c comp, (if negb (comp =? c_comp c)%Z && (c_dec c =? c_comp c)%Z then comp else c_dec c) = dec_of c comp.
Proof. intros c comp. unfold dec_of. destruct (Z.eqb_spec comp (c_comp c)), (Z.eqb_spec (c_dec c) (c_comp c)); cbn [negb andb]; congruence. Qed.
Lemma add_some : forall fs c f, fs (c_stream c) = Some f -> add_sample fs c = (mkC (c_stream c) (dtrunc (fst (dfix f (dbl (c_comp c))))) (dec_of c (dtrunc (fst (dfix f (dbl (c_comp c)))))), fun i => if (i =? c_stream c)%Z then Some (snd (dfix f (dbl (c_comp c)))) else fs i).
Proof. intros fs c f H. unfold add_sample. rewrite H. destruct (dfix f (dbl (c_comp c))) as [t s]. cbn [fst snd]. rewrite dec_same. reflexivity. Qed.
Lemma add_none : forall fs c, fs (c_stream c) = None -> add_sample fs c = (mkC (c_stream c) (dtrunc (dbl (c_comp c))) (dec_of c (dtrunc (dbl (c_comp c)))), fs).
Proof. intros fs c H. unfold add_sample. rewrite H. cbv zeta. rewrite dec_same. reflexivity. Qed.
Lemma restrict : forall s l fs f, fs s = Some f -> of_stream s (add_samples fs l) = run1 f (of_stream s l).
Proof.
  intros s l. induction l as [|c l IH]; intros fs f H; [reflexivity|]. cbn [add_samples].
  destruct (Z.eq_dec (c_stream c) s) as [E|N].
  - rewrite (add_some fs c f) by (rewrite E; exact H). unfold of_stream in *. cbn [filter c_stream]. rewrite E, Z.eqb_refl. cbn [run1]. cbv zeta. rewrite E. f_equal. apply IH. rewrite Z.eqb_refl. reflexivity.
  - assert (F : snd (add_sample fs c) s = Some f /\ c_stream (fst (add_sample fs c)) = c_stream c).
    { destruct (fs (c_stream c)) as [g|] eqn:G; [rewrite (add_some fs c g G)|rewrite (add_none fs c G)]; cbn [fst snd c_stream]; (split; [|reflexivity]); [|exact H]. destruct (Z.eqb_spec s (c_stream c)) as [Q|NQ]; [congruence|exact H]. }
    destruct (add_sample fs c) as [c' fs']. cbn [fst snd] in F. destruct F as [F1 F2]. unfold of_stream in *. cbn [filter]. rewrite F2. destruct (Z.eqb_spec (c_stream c) s) as [Q|NQ]; [congruence|]. apply IH. exact F1.
Qed.
Lemma run1_ok : forall l f mn mx prev, Ok f mn mx prev -> 1 <= mn -> mn <= mx -> mx <= 2 ^ 34 -> 0 <= prev < IZR (2 ^ 52) ->
  Forall (fun c => 0 <= c_comp c < 2 ^ 52)%Z l -> Forall (fun c => c_comp c < 2 ^ 52)%Z (run1 f l) ->
  Forall2 (fun i o => c_stream o = c_stream i /\ IZR (c_comp i) - IZR (c_comp o) <= mx + / 2 + 1) l (run1 f l) /\
  (forall before, IZR before <= prev -> (prev = 2147483647 -> before = 2147483647%Z) -> forall pre a b post, mkC 0 before 0 :: run1 f l = pre ++ a :: b :: post -> c_comp a <> 2147483647%Z -> mn - / 2 - 1 <= IZR (c_comp b) - IZR (c_comp a)).
Proof.
  induction l as [|c l IH]; intros f mn mx prev HO H0 H1 H2 Hp HI HF.
  - split; [constructor|]. intros before _ _ pre a b post E. destruct pre as [|x [|y pre]]; discriminate.
  - cbn [run1] in *. cbv zeta in *. pose proof (Forall_inv HI) as Hc. cbv beta in Hc. pose proof (Forall_inv HF) as Hb. cbv beta in Hb. cbn [c_comp] in Hb.
    assert (S : exists o, fin (fst (dfix f (dbl (c_comp c)))) o /\ Ok (snd (dfix f (dbl (c_comp c)))) mn mx o /\ (prev = 2147483647 \/ prev + mn - / 2 <= o) /\ IZR (c_comp c) - mx - / 2 <= o /\ 0 <= o).
    { destruct (Req_dec prev 2147483647) as [->|N].
      - destruct (step_never f mn mx (c_comp c) HO Hc) as [E1 E2]. exists (IZR (c_comp c)). rewrite E1. split; [apply dbl_fin; lia|]. split; [exact E2|]. split; [left; reflexivity|]. split; [lra|]. apply IZR_le. lia.
      - destruct (step_next f mn mx prev (c_comp c) HO ltac:(lra) H1 H2 Hp N Hc) as [o [E1 [E2 [E3 E4]]]]. exists o. split; [exact E1|]. split; [exact E2|]. split; [right; exact E3|]. split; [exact E4|].
        lra. }
    destruct S as [o [Fo [HO' [L1 [L2 L3]]]]]. destruct (trunc_ok _ _ Fo L3) as [[T1 T2] T3]. set (d := dtrunc (fst (dfix f (dbl (c_comp c))))) in *.
    assert (Ho : 0 <= o < IZR (2 ^ 52)). { split; [exact L3|]. apply Rlt_le_trans with (IZR (d + 1)); [rewrite plus_IZR; exact T2|]. apply IZR_le. lia. }
    destruct (IH (snd (dfix f (dbl (c_comp c)))) mn mx o HO' H0 H1 H2 Ho (Forall_inv_tail HI) (Forall_inv_tail HF)) as [I1 I2].
    split; [constructor; [split; [reflexivity|cbn [c_comp]; lra]|exact I1]|].
    intros before B1 B2 pre a b post E NA. destruct pre as [|x pre].
    + cbn [app] in E. assert (a = mkC 0 before 0) by congruence. assert (b = mkC (c_stream c) d (dec_of c d)) by congruence. subst a b. cbn [c_comp] in *. destruct L1 as [L1|L1]; [exfalso; apply NA; apply B2; exact L1|]. lra.
    + cbn [app] in E. assert (E' : mkC (c_stream c) d (dec_of c d) :: run1 (snd (dfix f (dbl (c_comp c)))) l = pre ++ a :: b :: post) by congruence.
      destruct pre as [|y pre].
      * cbn [app] in E'. destruct (run1 (snd (dfix f (dbl (c_comp c)))) l) as [|r rs] eqn:RR; [discriminate|]. assert (a = mkC (c_stream c) d (dec_of c d)) by congruence. assert (r = b) by congruence. subst a b. cbn [c_comp] in NA.
        assert (X := I2 d T1). assert (Y : o = 2147483647 -> d = 2147483647%Z).
        { intro Q. rewrite Q in T1, T2. change 2147483647 with (IZR 2147483647) in T1, T2. apply le_IZR in T1. rewrite <- plus_IZR in T2. apply lt_IZR in T2. lia. }
        exact (X Y [] (mkC 0 d 0) r rs eq_refl NA).
      * cbn [app] in E'. assert (E2 : run1 (snd (dfix f (dbl (c_comp c)))) l = pre ++ a :: b :: post) by congruence.
        assert (X := I2 d T1). assert (Y : o = 2147483647 -> d = 2147483647%Z).
        { intro Q. rewrite Q in T1, T2. change 2147483647 with (IZR 2147483647) in T1, T2. apply le_IZR in T1. rewrite <- plus_IZR in T2. apply lt_IZR in T2. lia. }
        refine (X Y (mkC 0 d 0 :: pre) a b post _ NA). cbn [app]. rewrite E2. reflexivity.
Qed.
(** ** The writer *)
Lemma start_ok : forall rate, (0 < rate <= 1000000)%Z -> exists mn mx, Ok (dstart rate) mn mx 2147483647 /\ 1 <= mn /\ mn <= mx /\ mx <= 2 ^ 34 /\ 10240000000 <= IZR rate * (mn + / 8) /\ IZR rate * (mx - / 8) <= 10250000000.
Proof.
  intros rate H. destruct (duration 1024 rate ltac:(lia) H) as [mn [F1 D1]]. destruct (duration 1025 rate ltac:(lia) H) as [mx [F2 D2]]. exists mn, mx.
  assert (Rr : 1 <= IZR rate <= 1000000) by (split; apply IZR_le; lia). assert (P34 : (2 : R) ^ 34 = 17179869184) by (cbn; lra). rewrite P34.
  assert (Iv : / 1000000 <= / IZR rate <= 1). { split; [apply Rinv_le; lra|]. rewrite <- Rinv_1. apply Rinv_le; lra. }
  apply Rabs_le_inv in D1, D2. change (1024 * 10000000)%Z with 10240000000%Z in D1. change (1025 * 10000000)%Z with 10250000000%Z in D2. unfold Rdiv in *.
  assert (X : IZR rate * / IZR rate = 1) by (apply Rinv_r; lra).
  split; [split; [exact F1|split; [exact F2|exact (dbl_fin 2147483647 ltac:(lia))]]|].
  split; [lra|]. split; [lra|]. split; [lra|]. split; nra.
Qed.
Lemma mux_some : forall rates s rate calls, rates s = Some rate -> of_stream s (mux rates calls) = run1 (dstart rate) (of_stream s calls).
Proof. intros rates s rate calls H. unfold mux. apply restrict. rewrite H. reflexivity. Qed.
Lemma of_stream_forall : forall (P : call -> Prop) s l, Forall P l -> Forall P (of_stream s l).
Proof. intros P s l H. unfold of_stream. apply Forall_forall. intros x Hx. apply filter_In in Hx. rewrite Forall_forall in H. apply H. apply Hx. Qed.
Lemma mux_ok : forall rates s rate calls, rates s = Some rate -> (0 < rate <= 1000000)%Z ->
  Forall (fun c => 0 <= c_comp c < 2 ^ 52)%Z calls -> Forall (fun c => c_comp c < 2 ^ 52)%Z (mux rates calls) ->
  Forall2 (fun i o => c_stream o = c_stream i /\ rate * (c_comp i - c_comp o - 2) <= 10250000000)%Z (of_stream s calls) (of_stream s (mux rates calls)) /\
  (forall pre a b post, of_stream s (mux rates calls) = pre ++ a :: b :: post -> c_comp a <> 2147483647%Z -> (10240000000 <= rate * (c_comp b - c_comp a + 2))%Z).
Proof.
  intros rates s rate calls HS HR HI HF. apply (of_stream_forall _ s) in HI. apply (of_stream_forall _ s) in HF. rewrite (mux_some rates s rate calls HS) in *.
  destruct (start_ok rate HR) as [mn [mx [HO [H0 [H1 [H2 [M1 M2]]]]]]]. assert (Rr : 1 <= IZR rate <= 1000000) by (split; apply IZR_le; lia).
  destruct (run1_ok (of_stream s calls) (dstart rate) mn mx 2147483647 HO H0 H1 H2 ltac:(change (IZR (2 ^ 52)) with 4503599627370496; lra) HI HF) as [I1 I2].
  split.
  - clear - I1 M2 Rr. induction I1 as [|i o l l' [A B] I1 IH]; constructor; [|exact IH]. split; [exact A|]. apply le_IZR. rewrite mult_IZR, !minus_IZR. nra.
  - intros pre a b post E NA. specialize (I2 2147483647%Z ltac:(lra) ltac:(reflexivity) (mkC 0 2147483647 0 :: pre) a b post ltac:(cbn [app]; rewrite E; reflexivity) NA).
    apply le_IZR. rewrite mult_IZR, plus_IZR, minus_IZR. nra.
Qed.
Lemma mux_first : forall rates s rate calls c l, rates s = Some rate -> (0 < rate <= 1000000)%Z -> (0 <= c_comp c < 2 ^ 52)%Z -> of_stream s calls = c :: l -> exists l', of_stream s (mux rates calls) = c :: l'.
Proof.
  intros rates s rate calls c l HS HR Hc E. rewrite (mux_some rates s rate calls HS), E. cbn [run1]. cbv zeta. destruct (start_ok rate HR) as [mn [mx [HO _]]]. destruct (step_never _ _ _ (c_comp c) HO Hc) as [E1 _]. rewrite E1, trunc_int by lia.
  eexists. f_equal. unfold dec_of. destruct c as [st comp dec]. cbn [c_stream c_comp c_dec]. destruct (Z.eqb_spec dec comp); congruence.
Qed.
Lemma samples_shape : forall calls fs, Forall2 (fun i o => c_stream o = c_stream i /\ c_dec o = if (c_dec i =? c_comp i)%Z then c_comp o else c_dec i) calls (add_samples fs calls).
Proof.
  induction calls as [|c l IH]; intros fs; [constructor|]. cbn [add_samples].
  assert (F : c_stream (fst (add_sample fs c)) = c_stream c /\ c_dec (fst (add_sample fs c)) = if (c_dec c =? c_comp c)%Z then c_comp (fst (add_sample fs c)) else c_dec c).
  { destruct (fs (c_stream c)) as [g|] eqn:G; [rewrite (add_some fs c g G)|rewrite (add_none fs c G)]; cbn [fst c_stream c_dec c_comp]; split; reflexivity. }
  destruct (add_sample fs c) as [c' fs']. cbn [fst] in F. constructor; [exact F|apply IH].
Qed.
Lemma samples_other : forall calls fs s, fs s = None -> Forall (fun c => 0 <= c_comp c <= 2 ^ 53)%Z calls -> of_stream s (add_samples fs calls) = of_stream s calls.
Proof.
  induction calls as [|c l IH]; intros fs s H F; [reflexivity|]. cbn [add_samples]. pose proof (Forall_inv F) as Hc. cbv beta in Hc.
  destruct (Z.eq_dec (c_stream c) s) as [E|N].
  - rewrite add_none by (rewrite E; exact H). rewrite trunc_int by exact Hc. unfold of_stream in *. cbn [filter c_stream]. rewrite E, Z.eqb_refl. rewrite (IH fs s H (Forall_inv_tail F)). f_equal. destruct c as [st comp dec]. cbn [c_stream c_comp c_dec] in *. subst st. unfold dec_of. cbn [c_comp c_dec]. destruct (Z.eqb_spec dec comp); congruence.
  - assert (Q : snd (add_sample fs c) s = None /\ c_stream (fst (add_sample fs c)) = c_stream c).
    { destruct (fs (c_stream c)) as [g|] eqn:G; [rewrite (add_some fs c g G)|rewrite (add_none fs c G)]; cbn [fst snd c_stream]; (split; [|reflexivity]); [|exact H]. destruct (Z.eqb_spec s (c_stream c)) as [Q|NQ]; [congruence|exact H]. }
    destruct (add_sample fs c) as [c' fs']. cbn [fst snd] in Q. destruct Q as [F1 F2]. unfold of_stream in *. cbn [filter]. rewrite F2. destruct (Z.eqb_spec (c_stream c) s) as [Q|NQ]; [congruence|]. apply IH; [exact F1|exact (Forall_inv_tail F)].
Qed.
