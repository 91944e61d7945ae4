(** Lemmas on the DASH manifest. *)
From Coq Require Import String ZifyNat.
From Verif Require Import Util Dec_spec Dec_lemmas Str_model Mpd_model.
Local Open Scope Z_scope.
Local Ltac Zify.zify_post_hook ::= Z.div_mod_to_equations.

Lemma strip_app : forall p l, strip p (p ++ l) = Some l.
Proof. induction p as [|x p IH]; intros l; [reflexivity|]. cbn [strip app]. rewrite Z.eqb_refl. apply IH. Qed.
Lemma span_app : forall d c l, Forall is_digit d -> ~ is_digit c -> span_digits (d ++ c :: l) = (d, c :: l).
Proof.
  induction d as [|x d IH]; intros c l F N; cbn [app span_digits].
  - destruct ((48 <=? c) && (c <=? 57)) eqn:E; [|reflexivity]. exfalso. apply N. unfold is_digit. lia.
  - pose proof (Forall_inv F) as X. unfold is_digit in X. replace ((48 <=? x) && (x <=? 57)) with true by lia.
    rewrite (IH c l (Forall_inv_tail F) N). reflexivity.
Qed.
Lemma number_dec : forall n c l, 0 <= n -> ~ is_digit c -> number (dec n ++ c :: l) = Some (n, c :: l).
Proof.
  intros n c l H N. destruct (dec_ok n H) as (A & B & C). unfold number. rewrite span_app by assumption.
  destruct (dec n) as [|x r]; [contradiction|]. rewrite A. reflexivity.
Qed.
Definition selt_text (s : selt) : list Z :=
  TAB4 ++ str "<S d=""" ++ dec (s_d s) ++
  match s_t s with Some t => str """ t=""" ++ dec t | None => if 0 <? s_r s then str """ r=""" ++ dec (s_r s) else [] end ++ str """ />" ++ CRLF.
Definition selt_ok (s : selt) : Prop := 0 <= s_d s /\ 0 <= s_r s /\ match s_t s with Some t => 0 <= t /\ s_r s = 0 | None => True end.
Lemma read_selt_text : forall s l, selt_ok s -> read_selt (selt_text s ++ l) = Some (s, l).
Proof.
  assert (Q : ~ is_digit 34) by (unfold is_digit; lia).
  intros [d t r] l (D & R & T). cbn [s_d s_t s_r] in *. unfold read_selt, selt_text. cbn [s_d s_t s_r].
  rewrite app_assoc, <- app_assoc. rewrite strip_app. cbn [obind].
  destruct t as [t|].
  - destruct T as (T & ->). rewrite <- !app_assoc. change (str """ t=""") with (34 :: str " t="""). cbn [app]. rewrite number_dec by assumption. cbn [obind].
    change (34 :: str " t=""" ++ dec t ++ str """ />" ++ CRLF ++ l) with ((34 :: str " t=""") ++ dec t ++ str """ />" ++ CRLF ++ l).
    rewrite strip_app. change (str """ />") with (34 :: str " />"). cbn [app]. rewrite number_dec by assumption. cbn [obind].
    change (34 :: str " />" ++ CRLF ++ l) with ((34 :: str " />") ++ CRLF ++ l). rewrite app_assoc. change (34 :: str " />" ++ CRLF) with ((34 :: str " />") ++ CRLF). rewrite strip_app. reflexivity.
  - destruct (Z.ltb_spec 0 r) as [P|P].
    + rewrite <- !app_assoc. change (str """ r=""") with (34 :: str " r="""). cbn [app]. rewrite number_dec by assumption. cbn [obind].
      change (strip (str """ t=""") (34 :: str " r=""" ++ dec r ++ str """ />" ++ CRLF ++ l)) with (@None (list Z)).
      change (34 :: str " r=""" ++ dec r ++ str """ />" ++ CRLF ++ l) with ((34 :: str " r=""") ++ dec r ++ str """ />" ++ CRLF ++ l).
      rewrite strip_app. change (str """ />") with (34 :: str " />"). cbn [app]. rewrite number_dec by assumption. cbn [obind].
      change (34 :: str " />" ++ CRLF ++ l) with ((34 :: str " />") ++ CRLF ++ l). rewrite app_assoc. change (34 :: str " />" ++ CRLF) with ((34 :: str " />") ++ CRLF). rewrite strip_app. reflexivity.
    + assert (r = 0) by lia. subst r. cbn [app]. change (str """ />") with (34 :: str " />"). rewrite <- !app_assoc. cbn [app]. rewrite number_dec by assumption. cbn [obind].
      change (strip (str """ t=""") (34 :: str " />" ++ CRLF ++ l)) with (@None (list Z)).
      change (strip (str """ r=""") (34 :: str " />" ++ CRLF ++ l)) with (@None (list Z)).
      change (34 :: str " />" ++ CRLF ++ l) with ((34 :: str " />") ++ CRLF ++ l). rewrite app_assoc. change (34 :: str " />" ++ CRLF) with ((34 :: str " />") ++ CRLF). rewrite strip_app. reflexivity.
Qed.
Lemma read_timeline_text : forall es fuel, Forall selt_ok es -> (length (flat_map selt_text es) <= fuel)%nat -> read_timeline fuel (flat_map selt_text es) = Some es.
Proof.
  induction es as [|e es IH]; intros fuel F L; [destruct fuel; reflexivity|].
  cbn [flat_map] in *. rewrite app_length in L. assert (N : (4 <= length (selt_text e))%nat) by (unfold selt_text; rewrite app_length; cbn [TAB4 length]; lia).
  destruct fuel as [|fuel]; [lia|]. destruct (selt_text e ++ flat_map selt_text es) as [|x r] eqn:E.
  { apply (f_equal (@length Z)) in E. rewrite app_length in E. cbn [length] in E. lia. }
  cbn [read_timeline]. rewrite <- E. rewrite read_selt_text by (exact (Forall_inv F)). cbn [obind]. rewrite IH; [reflexivity|exact (Forall_inv_tail F)|lia].
Qed.
Lemma run_text_selt : forall d n, 0 < n -> run_text d n = selt_text (mkS d None (n - 1)).
Proof. intros d n H. unfold run_text, selt_text. cbn [s_d s_t s_r]. replace (0 <? n - 1) with (1 <? n) by lia. destruct (1 <? n); reflexivity. Qed.

(** where the segments of a timeline end *)
Fixpoint tl_end (e : Z) (l : list selt) : Z :=
  match l with [] => e | s :: r => tl_end (match s_t s with Some t => t | None => e end + s_d s * (s_r s + 1)) r end.
Lemma segments_app : forall a b e, segments e (a ++ b) = segments e a ++ segments (tl_end e a) b.
Proof. induction a as [|s a IH]; intros b e; [reflexivity|]. cbn [app segments tl_end]. rewrite IH, app_assoc. reflexivity. Qed.
Lemma tl_end_app : forall a b e, tl_end e (a ++ b) = tl_end (tl_end e a) b.
Proof. induction a as [|s a IH]; intros b e; [reflexivity|]. cbn [app tl_end]. apply IH. Qed.
Lemma repeated_snoc : forall n t d, repeated (S n) t d = repeated n t d ++ [(t + d * Z.of_nat n, d)].
Proof.
  induction n as [|n IH]; intros t d; [cbn [repeated app]; replace (t + d * Z.of_nat 0) with t by lia; reflexivity|].
  change (repeated (S (S n)) t d) with ((t, d) :: repeated (S n) (t + d) d). rewrite IH. cbn [repeated app]. replace (t + d * Z.of_nat (S n)) with (t + d + d * Z.of_nat n) by lia. reflexivity.
Qed.

Definition inv (m : mpd) (pts : list (Z * Z)) : Prop := exists es,
  m_xml m = flat_map selt_text es /\ Forall selt_ok es
  /\ 0 <= m_count m /\ 0 <= m_dur m
  /\ pts = segments 0 es ++ repeated (Z.to_nat (m_count m)) (tl_end 0 es) (m_dur m)
  /\ m_time m = tl_end 0 es + m_dur m * m_count m.
Lemma inv_flush : forall m pts, inv m pts -> 0 < m_count m -> inv (mkmpd (m_time m) 0 0 (m_xml m ++ run_text (m_dur m) (m_count m))) pts.
Proof.
  intros m pts (es & X & F & C & D & P & T) H. exists (es ++ [mkS (m_dur m) None (m_count m - 1)]). cbn [m_time m_dur m_count m_xml].
  split; [rewrite flat_map_app, X, run_text_selt by exact H; cbn [flat_map]; rewrite app_nil_r; reflexivity|].
  split; [apply Forall_app; split; [exact F|]; constructor; [|constructor]; unfold selt_ok; cbn [s_d s_t s_r]; lia|].
  split; [lia|]. split; [lia|]. split.
  - rewrite segments_app. cbn [segments s_d s_t s_r Z.to_nat repeated]. rewrite !app_nil_r.
    replace (Z.to_nat (m_count m)) with (S (Z.to_nat (m_count m - 1))) in P by lia. rewrite P. reflexivity.
  - rewrite tl_end_app. cbn [tl_end s_d s_t s_r]. lia.
Qed.
Lemma inv_add : forall m pts t d, inv m pts -> pt_ok (t, d) -> inv (add_point m t d) (pts ++ [(t, d)]).
Proof.
  intros m pts t d I (T0 & D0 & Sm). cbn [fst snd] in *.
  assert (A : exists m', inv m' pts /\ m_time m' = m_time m /\ (t = m_time m -> m_count m' = 0 \/ m_dur m' = d) /\ (t <> m_time m -> m_count m' = 0)
     /\ add_point m t d = (let m := if negb (t =? m_time m') then mkmpd t 0 (m_count m') (m_xml m' ++ TAB4 ++ str "<S d=""" ++ dec d ++ str """ t=""" ++ dec t ++ str """ />" ++ CRLF)
       else mkmpd (m_time m') d (m_count m' + 1) (m_xml m') in mkmpd ((m_time m + d) mod 2 ^ 64) (m_dur m) (m_count m) (m_xml m))).
  { pose proof I as I0. destruct I0 as (es & _ & _ & C & _).
    destruct ((negb (t =? m_time m) || negb (m_dur m =? d)) && (0 <? m_count m)) eqn:B.
    - exists (mkmpd (m_time m) 0 0 (m_xml m ++ run_text (m_dur m) (m_count m))).
      split; [apply inv_flush; [exact I|lia]|]. split; [reflexivity|]. split; [intros _; left; reflexivity|]. split; [intros _; reflexivity|].
      unfold add_point. rewrite B. replace (negb (m_dur m =? d) || negb (t =? m_time m) || (0 =? m_time m)) with true by lia. reflexivity.
    - exists m. split; [exact I|]. split; [reflexivity|]. split; [intros E; lia|]. split; [intros E; lia|].
      unfold add_point. rewrite B. destruct (negb (m_dur m =? d) || negb (t =? m_time m) || (0 =? m_time m)); reflexivity. }
  destruct A as (m' & (es & X & F & C & D & P & T) & Et & A1 & A2 & ->). cbv zeta. rewrite <- Et in A1, A2. destruct (Z.eqb_spec t (m_time m')) as [E|E]; cbn [negb].
  - cbn [m_time m_dur m_count m_xml]. rewrite <- E. exists es. cbn [m_time m_dur m_count m_xml].
    split; [exact X|]. split; [exact F|]. split; [lia|]. split; [exact D0|].
    assert (R : repeated (Z.to_nat (m_count m')) (tl_end 0 es) (m_dur m') = repeated (Z.to_nat (m_count m')) (tl_end 0 es) d /\ m_dur m' * m_count m' = d * m_count m').
    { destruct (A1 E) as [Z0| ->]; [rewrite Z0; split; [reflexivity|lia]|split; reflexivity]. }
    destruct R as (R1 & R2). split.
    + replace (Z.to_nat (m_count m' + 1)) with (S (Z.to_nat (m_count m'))) by lia. rewrite repeated_snoc, app_assoc, P, R1. f_equal. f_equal. f_equal. rewrite E, T, R2. lia.
    + rewrite Z.mod_small by lia. lia.
  - pose proof (A2 E) as Z0. cbn [m_time m_dur m_count m_xml]. exists (es ++ [mkS d (Some t) 0]). cbn [m_time m_dur m_count m_xml].
    split; [rewrite X, flat_map_app; cbn [flat_map selt_text s_d s_t s_r]; rewrite app_nil_r, <- ?app_assoc; reflexivity|].
    split; [apply Forall_app; split; [exact F|]; constructor; [|constructor]; unfold selt_ok; cbn [s_d s_t s_r]; lia|].
    split; [lia|]. split; [lia|]. split.
    + rewrite Z0. rewrite segments_app. cbn [segments s_d s_t s_r Z.to_nat repeated app]. rewrite P, Z0. cbn [Z.to_nat repeated]. rewrite !app_nil_r. reflexivity.
    + rewrite Z.mod_small by lia. rewrite tl_end_app. cbn [tl_end s_d s_t s_r]. rewrite Z0. lia.
Qed.
Lemma inv_fold : forall pts m done, inv m done -> Forall pt_ok pts -> inv (fold_left (fun m p => add_point m (fst p) (snd p)) pts m) (done ++ pts).
Proof.
  induction pts as [|(t & d) pts IH]; intros m done I F; cbn [fold_left fst snd]; [rewrite app_nil_r; exact I|].
  replace (done ++ (t, d) :: pts) with ((done ++ [(t, d)]) ++ pts) by (rewrite <- app_assoc; reflexivity).
  apply IH; [|exact (Forall_inv_tail F)]. apply inv_add; [exact I|exact (Forall_inv F)].
Qed.
Lemma timeline_ok : forall pts, Forall pt_ok pts -> exists es, timeline (timeline_text pts) = Some es /\ segments 0 es = pts.
Proof.
  intros pts F. unfold timeline_text.
  assert (I : inv (fold_left (fun m p => add_point m (fst p) (snd p)) pts begin_stream) ([] ++ pts)).
  { apply inv_fold; [|exact F]. exists []. cbn. repeat split; try lia. constructor. }
  cbn [app] in I. set (m := fold_left (fun m p => add_point m (fst p) (snd p)) pts begin_stream) in *.
  assert (J : exists es, m_xml (end_stream m) = flat_map selt_text es /\ Forall selt_ok es /\ segments 0 es = pts).
  { unfold end_stream. destruct (Z.ltb_spec 0 (m_count m)) as [H|H].
    - destruct (inv_flush m pts I H) as (es & X & G & _ & _ & P & _). cbn [m_time m_dur m_count m_xml Z.to_nat repeated] in *. rewrite app_nil_r in P. exists es. auto.
    - destruct I as (es & X & G & C & _ & P & _). replace (Z.to_nat (m_count m)) with 0%nat in P by lia. cbn [repeated] in P. rewrite app_nil_r in P. exists es. auto. }
  destruct J as (es & X & G & P). exists es. split; [|exact P]. rewrite X. unfold timeline. apply read_timeline_text; [exact G|lia].
Qed.

(** * decimals *)
Lemma dec_len_bounds : forall n, 0 < n -> 10 ^ (zlen (dec n) - 1) <= n < 10 ^ zlen (dec n).
Proof.
  enough (X : forall n, 0 <= n -> 0 < n -> 10 ^ (zlen (dec n) - 1) <= n < 10 ^ zlen (dec n)) by (intros n H; apply X; lia).
  intros n N. pattern n. apply Z_lt_induction; [|exact N]. clear n N. intros n IH H. rewrite (dec_unfold n) by lia. destruct (Z.ltb_spec n 10) as [L|L].
  - change (zlen ([] ++ [48 + n mod 10])) with 1. cbn. lia.
  - rewrite zlen_app. change (zlen [48 + n mod 10]) with 1. pose proof (IH (n / 10) ltac:(lia) ltac:(lia)) as B.
    assert (G : 0 < zlen (dec (n / 10))).
    { destruct (dec_ok (n / 10) ltac:(lia)) as (_ & _ & X). destruct (dec (n / 10)); [contradiction|rewrite zlen_cons; pose proof (zlen_nonneg l); lia]. }
    set (k := zlen (dec (n / 10))) in *. replace (k + 1 - 1) with (k - 1 + 1) by lia. rewrite !Z.pow_add_r by lia. change (10 ^ 1) with 10.
    generalize dependent (10 ^ (k - 1)). generalize (10 ^ k). intros. lia.
Qed.
(** the fraction is right only when it is 0 *)
Lemma wrong_fraction : forall y, 0 <= y < 10000000 -> undec (dec (y mod 1000000)) * 10000000 = y * 10 ^ zlen (dec (y mod 1000000)) -> y = 0.
Proof.
  intros y H E. set (x := y mod 1000000) in *. rewrite undec_dec in E by (subst x; lia).
  destruct (Z.eq_dec x 0) as [X|X].
  - rewrite X in E. change (zlen (dec 0)) with 1 in E. lia.
  - pose proof (dec_len_bounds x ltac:(subst x; lia)) as B. set (k := zlen (dec x)) in *.
    assert (K0 : 0 <= k) by apply zlen_nonneg.
    assert (K : k < 7). { destruct (Z_lt_ge_dec k 7) as [?|G]; [assumption|]. exfalso. assert (10 ^ 6 <= 10 ^ (k - 1)) by (apply Z.pow_le_mono_r; lia). change (10 ^ 6) with 1000000 in H0. subst x. lia. }
    assert (Y : y = 1000000 * (y / 1000000) + x) by (subst x; lia). set (a := y / 1000000) in *. assert (A : 0 <= a < 10) by (subst a; lia). clearbody a x k.
    assert (C : k = 0 \/ k = 1 \/ k = 2 \/ k = 3 \/ k = 4 \/ k = 5 \/ k = 6) by lia.
    destruct C as [->|[->|[->|[->|[->|[->| ->]]]]]]; cbn in B, E; lia.
Qed.
