From Coq Require Import ZifyNat Permutation Sorted.
From Verif Require Import Util SampleTab_model AutoDec_model.
Local Open Scope Z_scope.
Lemma u64_small : forall x, 0 <= x < 2 ^ 64 -> u64 x = x.
Proof. intros x H. unfold u64. apply Z.mod_small. exact H. Qed.
Lemma insert_perm : forall x l, Permutation (x :: l) (insert x l).
Proof. induction l as [|y l IH]; [reflexivity|]. cbn [insert]. destruct (x <=? y); [reflexivity|]. rewrite perm_swap. constructor. exact IH. Qed.
Lemma sort_perm : forall l, Permutation l (sort l).
Proof. induction l as [|x l IH]; [constructor|]. cbn [sort]. rewrite <- insert_perm. constructor. exact IH. Qed.
Lemma insert_sorted : forall x l, StronglySorted Z.le l -> StronglySorted Z.le (insert x l).
Proof.
  induction l as [|y l IH]; intros H; [repeat constructor|]. cbn [insert]. apply StronglySorted_inv in H as G. destruct G as [G1 G2]. destruct (Z.leb_spec x y) as [Q|Q].
  - constructor; [exact H|]. constructor; [exact Q|]. eapply Forall_impl; [|exact G2]. intros a Ha. lia.
  - constructor; [apply IH; exact G1|]. apply Forall_forall. intros a Ha. apply (Permutation_in _ (Permutation_sym (insert_perm x l))) in Ha. destruct Ha as [<-|Ha]; [lia|]. rewrite Forall_forall in G2. apply G2. exact Ha.
Qed.
Lemma sort_sorted : forall l, StronglySorted Z.le (sort l). Proof. induction l as [|x l IH]; [constructor|]. cbn [sort]. apply insert_sorted. exact IH. Qed.
Lemma sort_In : forall l x, In x (sort l) <-> In x l.
Proof. intros l x. split; apply Permutation_in; [symmetry|]; apply sort_perm. Qed.
(** the search *)
Lemma before_spec : forall v x prev, StronglySorted Z.le v -> In x v -> (forall p, prev = Some p -> p < x /\ forall y, In y v -> p <= y) ->
  exists o, before x prev v = Some o /\ match o with Some p => (In p v \/ prev = Some p) /\ p < x /\ forall y, In y v -> y < x -> y <= p | None => prev = None /\ forall y, In y v -> x <= y end.
Proof.
  induction v as [|y v IH]; intros x prev Ss I Hp; [destruct I|]. apply StronglySorted_inv in Ss. destruct Ss as [S1 S2]. rewrite Forall_forall in S2. cbn [before]. destruct (Z.ltb_spec y x) as [Q|Q].
  - destruct I as [->|I]; [lia|]. destruct (IH x (Some y) S1 I) as (o & E & G); [intros p E; injection E as <-; split; [exact Q|exact S2]|]. exists o. split; [exact E|]. destruct o as [p|]; [|destruct G as [G _]; discriminate].
    destruct G as ([G1|G1] & G2 & G3).
    + split; [left; right; exact G1|]. split; [exact G2|]. intros z [<-|Hz] Hl; [apply S2; exact G1|apply G3; assumption].
    + injection G1 as <-. split; [left; left; reflexivity|]. split; [exact G2|]. intros z [<-|Hz] Hl; [lia|apply G3; assumption].
  - assert (y = x). { destruct I as [->|I]; [reflexivity|]. specialize (S2 x I). lia. } subst y. rewrite Z.eqb_refl. exists prev. split; [reflexivity|].
    assert (Mn : forall z, In z (x :: v) -> x <= z) by (intros z [<-|Hz]; [lia|apply S2; exact Hz]).
    destruct prev as [p|]; [|split; [reflexivity|exact Mn]]. destruct (Hp p eq_refl) as [A B]. split; [right; reflexivity|]. split; [exact A|]. intros z Hz Hl. specialize (Mn z Hz). lia.
Qed.
Lemma gap_spec : forall l x, Forall (fun c => 0 <= c < 2 ^ 64) l -> In x l -> (earliest l x /\ gap (sort l) x = 0) \/ exists p, just_before l p x /\ gap (sort l) x = x - p.
Proof.
  intros l x F I. destruct (before_spec (sort l) x None (sort_sorted l) ltac:(apply sort_In; exact I) ltac:(discriminate)) as (o & E & G). unfold gap. rewrite E. destruct o as [p|].
  - right. destruct G as ([G1|G1] & G2 & G3); [|discriminate]. apply (proj1 (sort_In l p)) in G1. exists p. split; [split; [exact G1|]; split; [exact G2|]; intros y Hy; apply G3; apply sort_In; exact Hy|].
    rewrite Forall_forall in F. pose proof (F x I). pose proof (F p G1). apply u64_small. lia.
  - left. destruct G as [_ G]. split; [|reflexivity]. split; [exact I|]. intros y Hy. apply G. apply sort_In. exact Hy.
Qed.
(** gaps, not in machine arithmetic, of any set of times *)
Lemma gap_nonneg : forall l x, Forall (fun c => 0 <= c < 2 ^ 64) l -> In x l -> 0 <= gap (sort l) x <= x.
Proof.
  intros l x F I. rewrite Forall_forall in F. destruct (gap_spec l x ltac:(apply Forall_forall; exact F) I) as [[_ ->]|(p & (P1 & P2 & _) & ->)]; [specialize (F x I); lia|]. pose proof (F p P1). lia.
Qed.
(** ** the loop without wrap-around *)
Fixpoint decs (g : Z -> Z) (tot : Z) (l : list Z) : list Z := match l with [] => [] | c :: l => (tot + g c) :: decs g (tot + g c) l end.
Fixpoint worst (off : Z) (l ds : list Z) : Z := match l, ds with c :: l, d :: ds => worst (Z.max off (d - c)) l ds | _, _ => off end.
Lemma auto_loop_spec : forall g v l tot off, (forall c, In c l -> gap v c = g c /\ 0 <= g c <= c) -> 0 <= tot -> 0 <= off -> (forall ds, In ds (decs g tot l) -> ds < 2 ^ 64) -> Forall (fun c => 0 <= c) l ->
  auto_loop v tot off l = (decs g tot l, worst off l (decs g tot l)).
Proof.
  induction l as [|c l IH]; intros tot off Hg Ht Ho Hd F; [reflexivity|]. cbn [auto_loop decs worst]. destruct (Hg c (or_introl eq_refl)) as [G1 G2]. rewrite G1. pose proof (Hd (tot + g c) ltac:(left; reflexivity)) as Hb. rewrite u64_small by lia. pose proof (Forall_inv F) as Fc. cbv beta in Fc.
  set (t := tot + g c) in *. assert (Eo : (if (c <? t) && (off <? u64 (t - c)) then u64 (t - c) else off) = Z.max off (t - c)).
  { destruct (Z.ltb_spec c t); cbn [andb]; [|lia]. rewrite u64_small by lia. destruct (Z.ltb_spec off (t - c)); lia. }
  rewrite Eo. rewrite (IH t (Z.max off (t - c))); [reflexivity|intros c' Hc'; apply Hg; right; exact Hc'|lia|lia|intros d Hd'; apply Hd; right; exact Hd'|exact (Forall_inv_tail F)].
Qed.
Lemma decs_length : forall g l tot, length (decs g tot l) = length l. Proof. induction l as [|c l IH]; intros tot; [reflexivity|]. cbn [decs length]. rewrite IH. reflexivity. Qed.
Lemma decs_bound : forall g l tot M, (forall c, In c l -> 0 <= g c <= M) -> forall d, In d (decs g tot l) -> tot <= d <= tot + M * Z.of_nat (length l).
Proof.
  induction l as [|c l IH]; intros tot M H d Hd; [destruct Hd|]. cbn [decs] in Hd. pose proof (H c (or_introl eq_refl)) as G. destruct Hd as [<-|Hd]; [cbn [length]; nia|].
  specialize (IH (tot + g c) M (fun c' Hc' => H c' (or_intror Hc')) d Hd). cbn [length]. lia.
Qed.
Lemma decs_nth : forall g l tot i, (i < length l)%nat -> nth i (decs g tot l) 0 = nth i (tot :: decs g tot l) 0 + g (nth i l 0).
Proof. induction l as [|c l IH]; intros tot i H; [cbn in H; lia|]. destruct i as [|i]; [reflexivity|]. cbn [decs nth length] in *. rewrite IH by lia. reflexivity. Qed.
Lemma worst_spec : forall l ds off, length l = length ds -> off <= worst off l ds /\ (forall i, (i < length l)%nat -> nth i ds 0 <= nth i l 0 + worst off l ds) /\ (worst off l ds = off \/ exists i, (i < length l)%nat /\ nth i ds 0 = nth i l 0 + worst off l ds).
Proof.
  induction l as [|c l IH]; intros [|d ds] off L; cbn [length] in L; try discriminate; [cbn; split; [lia|]; split; [intros; lia|left; reflexivity]|]. cbn [worst length]. destruct (IH ds (Z.max off (d - c)) ltac:(lia)) as (A & B & C). split; [lia|]. split.
  - intros [|i] Hi; cbn [nth]; [lia|apply B; lia].
  - destruct C as [C|(i & Hi & C)].
    + destruct (Z.max_spec off (d - c)) as [[M1 M2]|[M1 M2]]; [right; exists 0%nat; cbn [nth]; split; [lia|lia]|left; lia].
    + right. exists (S i). cbn [nth]. split; [lia|exact C].
Qed.
Lemma sort_head : forall l m r, sort l = m :: r -> earliest l m.
Proof.
  intros l m r E. split; [apply sort_In; rewrite E; left; reflexivity|]. intros y Hy. apply (proj2 (sort_In l y)) in Hy. rewrite E in Hy. pose proof (sort_sorted l) as Ss. rewrite E in Ss. apply StronglySorted_inv in Ss. destruct Ss as [_ Ss]. rewrite Forall_forall in Ss. destruct Hy as [<-|Hy]; [lia|apply Ss; exact Hy].
Qed.
Lemma modest_bound : forall l, modest l -> Forall (fun c => 0 <= c < 2 ^ 64) l.
Proof. intros l [F B]. apply Forall_forall. intros c I. rewrite Forall_forall in F. specialize (F c I). specialize (B c I). nia. Qed.
Lemma auto_spec : forall l m, modest l -> earliest l m -> auto_decoding l = (decs (gap (sort l)) m l, worst 0 l (decs (gap (sort l)) m l)).
Proof.
  intros l m Hm [E1 E2]. pose proof (modest_bound l Hm) as F. destruct Hm as [F0 B]. unfold auto_decoding. destruct (sort l) as [|m' r] eqn:Es; [apply (proj2 (sort_In l m)) in E1; rewrite Es in E1; destruct E1|].
  destruct (sort_head l m' r Es) as [H1 H2]. assert (m' = m) as -> by (specialize (H2 m E1); specialize (E2 m' H1); lia). rewrite <- Es.
  assert (Gb : forall c, In c l -> 0 <= gap (sort l) c <= c) by (intros c I; apply gap_nonneg; assumption).
  apply auto_loop_spec; [intros c I; split; [reflexivity|apply Gb; exact I]|rewrite Forall_forall in F0; apply F0; exact E1|lia| |exact F0].
  intros d Hd. set (M := fold_right Z.max 0 l). assert (HM : forall c, In c l -> c <= M) by (unfold M; clear; induction l as [|x l IH]; intros c Hc; [destruct Hc|]; destruct Hc as [<-|Hc]; cbn [fold_right]; [lia|specialize (IH c Hc); lia]).
  assert (HM2 : In M l \/ M = 0). { unfold M. clear. induction l as [|x l IH]; [right; reflexivity|]. cbn [fold_right]. destruct (Z.max_spec x (fold_right Z.max 0 l)) as [[_ ->]|[_ ->]]; [destruct IH as [IH|IH]; [left; right; exact IH|right; exact IH]|left; left; reflexivity]. }
  pose proof (decs_bound (gap (sort l)) l m M (fun c Hc => conj (proj1 (Gb c Hc)) (Z.le_trans _ _ _ (proj2 (Gb c Hc)) (HM c Hc))) d Hd) as Q.
  assert (m <= M) by (apply HM; exact E1). destruct HM2 as [HM2|HM2]; [specialize (B M HM2); nia|rewrite HM2 in *; lia].
Qed.
Lemma gap_is : forall l x g, Forall (fun c => 0 <= c < 2 ^ 64) l -> (earliest l x /\ g = 0) \/ (exists p, In x l /\ just_before l p x /\ g = x - p) -> gap (sort l) x = g.
Proof.
  intros l x g F H. assert (I : In x l) by (destruct H as [[[H _] _]|(p & H & _)]; exact H).
  destruct (gap_spec l x F I) as [[[_ E] ->]|(p & (P1 & P2 & P3) & ->)]; destruct H as [[[_ E'] ->]|(q & _ & (Q1 & Q2 & Q3) & ->)].
  - reflexivity.
  - specialize (E q Q1). lia.
  - specialize (E' p P1). lia.
  - specialize (P3 q Q1 Q2). specialize (Q3 p P1 P2). lia.
Qed.
(** ** sums *)
Definition sumg (g : Z -> Z) (l : list Z) : Z := fold_right (fun c a => g c + a) 0 l.
Lemma sumg_perm : forall g a b, Permutation a b -> sumg g a = sumg g b.
Proof. intros g a b P. induction P; cbn [sumg fold_right] in *; unfold sumg in *; lia. Qed.
Lemma sumg_ext : forall f g l, (forall c, In c l -> f c = g c) -> sumg f l = sumg g l.
Proof. induction l as [|x l IH]; intros H; [reflexivity|]. cbn [sumg fold_right]. fold (sumg f l). fold (sumg g l). rewrite (H x (or_introl eq_refl)), IH; [reflexivity|]. intros c Hc. apply H. right. exact Hc. Qed.
Lemma decs_last : forall g l tot, last (decs g tot l) tot = tot + sumg g l.
Proof.
  induction l as [|c l IH]; intros tot; [cbn; lia|]. cbn [decs sumg fold_right]. fold (sumg g l). specialize (IH (tot + g c)). destruct (decs g (tot + g c) l) as [|d ds] eqn:E; [destruct l; [cbn in *; lia|discriminate]|].
  change (last (tot + g c :: d :: ds) tot) with (last (d :: ds) tot). rewrite <- (Z.add_assoc tot) in IH. rewrite Z.add_assoc in IH |- *.
  assert (X : forall (a b : Z) y l, last (y :: l) a = last (y :: l) b) by (clear; intros a b y l; revert y; induction l as [|z l IH]; intros y; [reflexivity|exact (IH z)]). rewrite (X tot (tot + g c)). lia.
Qed.
Lemma sorted_lt : forall v, StronglySorted Z.le v -> NoDup v -> StronglySorted Z.lt v.
Proof.
  induction v as [|x v IH]; intros Ss N; [constructor|]. apply StronglySorted_inv in Ss. destruct Ss as [S1 S2]. inversion N; subst. constructor; [apply IH; assumption|]. rewrite Forall_forall in *. intros y Hy. specialize (S2 y Hy). assert (x <> y) by (intros ->; contradiction). lia.
Qed.
(** the gaps of distinct times add up *)
Lemma gap_sum : forall l m M, Forall (fun c => 0 <= c < 2 ^ 64) l -> NoDup l -> earliest l m -> latest l M -> sumg (gap (sort l)) l = M - m.
Proof.
  intros l m M F N Em EM. rewrite (sumg_perm _ l (sort l) (sort_perm l)).
  assert (Sv := sorted_lt (sort l) (sort_sorted l) (Permutation_NoDup (sort_perm l) N)).
  assert (Tel : forall v prev, StronglySorted Z.lt v -> (forall x, In x v -> In x l) -> (forall x, In x v -> prev < x) -> In prev l -> (forall y, In y l -> y <= prev \/ In y v) -> forall z, In z (prev :: v) -> (forall y, In y (prev :: v) -> y <= z) -> sumg (gap (sort l)) v = z - prev).
  { induction v as [|x v IH]; intros prev S0 H1 H2 H3 H4 z Hz Hmax; [destruct Hz as [<-|[]]; cbn; lia|]. cbn [sumg fold_right]. fold (sumg (gap (sort l)) v). apply StronglySorted_inv in S0. destruct S0 as [S1 S2]. rewrite Forall_forall in S2.
    assert (Gx : gap (sort l) x = x - prev).
    { apply gap_is; [exact F|]. right. exists prev. split; [apply H1; left; reflexivity|]. split; [|reflexivity]. split; [exact H3|]. split; [apply H2; left; reflexivity|]. intros y Hy Hl. destruct (H4 y Hy) as [Q|[<-|Q]]; [exact Q|lia|specialize (S2 y Q); lia]. }
    assert (Iz : In z (x :: v)). { destruct Hz as [<-|Hz]; [|exact Hz]. specialize (Hmax x (or_intror (or_introl eq_refl))). specialize (H2 x (or_introl eq_refl)). lia. }
    rewrite (IH x S1 (fun y Hy => H1 y (or_intror Hy)) S2 (H1 x (or_introl eq_refl))) with (z := z); [lia| |exact Iz|].
    - intros y Hy. destruct (H4 y Hy) as [Q|[<-|Q]]; [left; specialize (H2 x (or_introl eq_refl)); lia|left; lia|right; exact Q].
    - intros y Hy. apply Hmax. right. exact Hy. }
  destruct (sort l) as [|a v] eqn:Es; [destruct Em as [Em _]; apply (proj2 (sort_In l m)) in Em; rewrite Es in Em; destruct Em|]. destruct (sort_head l a v Es) as [A1 A2]. assert (a = m) as -> by (destruct Em as [E1 E2]; specialize (A2 m E1); specialize (E2 a A1); lia).
  cbn [sumg fold_right]. fold (sumg (gap (m :: v)) v). rewrite <- Es. rewrite (gap_is l m 0 F) by (left; split; [exact Em|reflexivity]). apply StronglySorted_inv in Sv. destruct Sv as [S1 S2]. rewrite Forall_forall in S2. rewrite <- Es in Tel.
  assert (Il : forall x, In x (m :: v) <-> In x l) by (intros x; rewrite <- Es; apply sort_In).
  rewrite (Tel v m S1) with (z := M); [lia|intros x Hx; apply Il; right; exact Hx|exact S2|exact A1| |apply Il; apply EM|intros y Hy; apply EM; apply Il; exact Hy].
  intros y Hy. apply Il in Hy. destruct Hy as [<-|Hy]; [left; lia|right; exact Hy].
Qed.
(** ** Validity *)
Lemma earliest_ex : forall l : list Z, l <> [] -> exists m, earliest l m.
Proof.
  induction l as [|x l IH]; intros H; [congruence|]. destruct l as [|y l]; [exists x; split; [left; reflexivity|intros z [<-|[]]; lia]|]. destruct (IH ltac:(discriminate)) as (m & M1 & M2). exists (Z.min x m). split; [destruct (Z.min_spec x m) as [[_ ->]|[_ ->]]; [left; reflexivity|right; exact M1]|]. intros z [<-|Hz]; [lia|specialize (M2 z Hz); lia].
Qed.
Lemma latest_ex : forall l : list Z, l <> [] -> exists m, latest l m.
Proof.
  induction l as [|x l IH]; intros H; [congruence|]. destruct l as [|y l]; [exists x; split; [left; reflexivity|intros z [<-|[]]; lia]|]. destruct (IH ltac:(discriminate)) as (m & M1 & M2). exists (Z.max x m). split; [destruct (Z.max_spec x m) as [[_ ->]|[_ ->]]; [right; exact M1|left; reflexivity]|]. intros z [<-|Hz]; [lia|specialize (M2 z Hz); lia].
Qed.
Lemma auto_valid : forall l m, modest l -> earliest l m -> exists ds off, auto_decoding l = (ds, off) /\ length ds = length l /\ 0 <= off
  /\ (forall i, (i < length l)%nat -> (earliest l (nth i l 0) -> nth i ds 0 = nth i (m :: ds) 0) /\ (forall p, just_before l p (nth i l 0) -> nth i ds 0 = nth i (m :: ds) 0 + (nth i l 0 - p)))
  /\ (forall i, (i < length l)%nat -> nth i (m :: ds) 0 <= nth i ds 0 <= nth i l 0 + off)
  /\ (off = 0 \/ exists i, (i < length l)%nat /\ nth i ds 0 = nth i l 0 + off).
Proof.
  intros l m Hm Em. pose proof (modest_bound l Hm) as F. rewrite (auto_spec l m Hm Em). eexists _, _. split; [reflexivity|]. set (ds := decs (gap (sort l)) m l). assert (L : length ds = length l) by apply decs_length.
  destruct (worst_spec l ds 0 (eq_sym L)) as (W1 & W2 & W3). split; [exact L|]. split; [exact W1|].
  assert (St : forall i, (i < length l)%nat -> nth i ds 0 = nth i (m :: ds) 0 + gap (sort l) (nth i l 0)) by (intros i Hi; apply decs_nth; exact Hi).
  split; [|split; [|exact W3]].
  - intros i Hi. pose proof (nth_In l 0 Hi) as I. split.
    + intros E. rewrite St by exact Hi. rewrite (gap_is l _ 0 F) by (left; split; [exact E|reflexivity]). lia.
    + intros p J. rewrite St by exact Hi. rewrite (gap_is l _ (nth i l 0 - p) F) by (right; exists p; split; [exact I|split; [exact J|reflexivity]]). reflexivity.
  - intros i Hi. split; [|apply W2; exact Hi]. rewrite (St i Hi). pose proof (gap_nonneg l (nth i l 0) F (nth_In l 0 Hi)). lia.
Qed.
Lemma just_or_earliest : forall l x, In x l -> earliest l x \/ exists p, just_before l p x.
Proof.
  intros l x I. assert (D : (forall y, In y l -> x <= y) \/ exists p, just_before l p x).
  { clear I. induction l as [|y l IH]; [left; intros ? []|]. destruct IH as [IH|(p & P1 & P2 & P3)].
    - destruct (Z.lt_ge_cases y x) as [Q|Q]; [right; exists y; split; [left; reflexivity|split; [exact Q|intros z [<-|Hz] Hl; [lia|specialize (IH z Hz); lia]]]|left; intros z [<-|Hz]; [lia|apply IH; exact Hz]].
    - right. destruct (Z.lt_ge_cases y x) as [Q|Q].
      + exists (Z.max p y). split; [destruct (Z.max_spec p y) as [[_ ->]|[_ ->]]; [left; reflexivity|right; exact P1]|]. split; [lia|]. intros z [<-|Hz] Hl; [lia|specialize (P3 z Hz Hl); lia].
      + exists p. split; [right; exact P1|]. split; [exact P2|]. intros z [<-|Hz] Hl; [lia|apply P3; assumption]. }
  destruct D as [D|D]; [left; split; assumption|right; exact D].
Qed.
Lemma last_any : forall (l : list Z) a b, l <> [] -> last l a = last l b.
Proof. induction l as [|y l IH]; intros a b N; [congruence|]. destruct l as [|z l]; [reflexivity|]. change (last (z :: l) a = last (z :: l) b). apply IH. discriminate. Qed.
Lemma auto_last : forall l M, modest l -> NoDup l -> latest l M -> exists ds off, auto_decoding l = (ds, off) /\ last ds 0 = M.
Proof.
  intros l M Hm N EM. destruct (earliest_ex l) as (m & Em); [destruct EM as [E _]; intros ->; exact E|]. pose proof (modest_bound l Hm) as F. rewrite (auto_spec l m Hm Em). eexists _, _. split; [reflexivity|].
  rewrite (last_any _ 0 m) by (intros Q; apply (f_equal (@length Z)) in Q; rewrite decs_length in Q; destruct l; [destruct Em as [[] _]|discriminate]). rewrite decs_last, (gap_sum l m M F N Em EM). lia.
Qed.
Lemma decs_app : forall g a b tot, decs g tot (a ++ b) = decs g tot a ++ decs g (tot + sumg g a) b.
Proof. induction a as [|x a IH]; intros b tot; [cbn; rewrite Z.add_0_r; reflexivity|]. cbn [app decs sumg fold_right]. fold (sumg g a). rewrite IH, Z.add_assoc. reflexivity. Qed.
Lemma decs_ext : forall f g l tot, (forall c, In c l -> f c = g c) -> decs f tot l = decs g tot l.
Proof. induction l as [|x l IH]; intros tot H; [reflexivity|]. cbn [decs]. rewrite (H x (or_introl eq_refl)). f_equal. apply IH. intros c Hc. apply H. right. exact Hc. Qed.
Lemma sorted_app_last : forall l x, StronglySorted Z.lt l -> (forall y, In y l -> y < x) -> StronglySorted Z.lt (l ++ [x]).
Proof.
  induction l as [|y l IH]; intros x Ss H; [repeat constructor|]. cbn [app]. apply StronglySorted_inv in Ss. destruct Ss as [S1 S2]. constructor; [apply IH; [exact S1|intros z Hz; apply H; right; exact Hz]|]. apply Forall_app. split; [exact S2|]. constructor; [apply H; left; reflexivity|constructor].
Qed.
Lemma early_sorted : forall l m, Forall (fun c => 0 <= c < 2 ^ 64) l -> NoDup l -> earliest l m -> (forall i, (i < length l)%nat -> nth i (decs (gap (sort l)) m l) 0 <= nth i l 0) -> StronglySorted Z.lt l.
Proof.
  induction l as [|x l IH] using rev_ind; intros m F N Em H; [constructor|]. destruct (latest_ex (l ++ [x])) as (M & EM); [destruct l; discriminate|].
  assert (Ex : x = M).
  { pose proof (H (length l) ltac:(rewrite app_length; cbn; lia)) as Q. rewrite decs_app in Q. rewrite !app_nth2 in Q by (rewrite ?decs_length; lia). rewrite decs_length, Nat.sub_diag in Q. cbn [decs nth] in Q.
    pose proof (gap_sum (l ++ [x]) m M F N Em EM) as G. assert (Sa : forall g a b, sumg g (a ++ b) = sumg g a + sumg g b) by (clear; intros g a b; induction a as [|y a IHa]; [reflexivity|]; cbn [app sumg fold_right]; fold (sumg g a); fold (sumg g (a ++ b)); lia).
    rewrite Sa in G. cbn [sumg fold_right] in G. fold (sumg (gap (sort (l ++ [x]))) l) in G. destruct EM as [_ EM]. specialize (EM x ltac:(apply in_or_app; right; left; reflexivity)). lia. }
  subst M. apply Forall_app in F as F'. destruct F' as [Fl _]. apply NoDup_remove in N as N'. rewrite app_nil_r in N'. destruct N' as [Nl Nx].
  assert (Lt : forall y, In y l -> y < x). { intros y Hy. destruct EM as [_ EM]. specialize (EM y ltac:(apply in_or_app; left; exact Hy)). assert (y <> x) by (intros ->; contradiction). lia. }
  apply sorted_app_last; [|exact Lt]. destruct l as [|y0 l0] eqn:El; [constructor|]. rewrite <- El in *. assert (Iy : In y0 l) by (rewrite El; left; reflexivity). clear El l0.
  assert (Im : In m l). { destruct Em as [E1 E2]. apply in_app_or in E1. destruct E1 as [E1|[<-|[]]]; [exact E1|]. specialize (E2 y0 ltac:(apply in_or_app; left; exact Iy)). specialize (Lt y0 Iy). lia. }
  assert (Eml : earliest l m). { split; [exact Im|]. intros y Hy. apply Em. apply in_or_app. left. exact Hy. }
  assert (Ge : forall c, In c l -> gap (sort (l ++ [x])) c = gap (sort l) c).
  { intros c Hc. symmetry. apply gap_is; [exact Fl|]. destruct (gap_spec (l ++ [x]) c F ltac:(apply in_or_app; left; exact Hc)) as [[[E1 E2] ->]|(p & (P1 & P2 & P3) & ->)].
    - left. split; [|reflexivity]. split; [exact Hc|]. intros y Hy. apply E2. apply in_or_app. left. exact Hy.
    - right. exists p. split; [exact Hc|]. split; [|reflexivity]. split; [|split; [exact P2|intros y Hy; apply P3; apply in_or_app; left; exact Hy]]. apply in_app_or in P1. destruct P1 as [P1|[<-|[]]]; [exact P1|]. specialize (Lt c Hc). lia. }
  apply (IH m Fl Nl Eml). intros i Hi. pose proof (H i ltac:(rewrite app_length; lia)) as Q. rewrite decs_app in Q. rewrite app_nth1 in Q by (rewrite decs_length; exact Hi). rewrite (app_nth1 l [x]) in Q by exact Hi. rewrite (decs_ext _ (gap (sort l)) l m Ge) in Q. exact Q.
Qed.
Lemma sorted_nth : forall l i j, StronglySorted Z.lt l -> (i < j < length l)%nat -> nth i l 0 < nth j l 0.
Proof.
  intros l i j Ss. revert i j. induction Ss as [|a r S1 IH F]; intros i j H; [cbn in H; lia|]. destruct i as [|i], j as [|j]; try lia; cbn [nth length] in *.
  - rewrite Forall_forall in F. apply (F (nth j r 0)). apply nth_In. lia.
  - apply IH. lia.
Qed.
Lemma sorted_decs : forall l m, Forall (fun c => 0 <= c < 2 ^ 64) l -> earliest l m -> StronglySorted Z.lt l -> decs (gap (sort l)) m l = l.
Proof.
  intros l m F Em Ss. set (ds := decs (gap (sort l)) m l). assert (L : length ds = length l) by apply decs_length. apply (nth_ext _ _ 0 0); [exact L|].
  assert (St : forall i, (i < length l)%nat -> nth i ds 0 = nth i (m :: ds) 0 + gap (sort l) (nth i l 0)) by (intros i Hi; apply decs_nth; exact Hi).
  assert (E0 : forall i, (i < length l)%nat -> nth i ds 0 = nth i l 0); [|intros i Hi; apply E0; lia].
  induction i as [|i IH]; intros Hi.
  - rewrite St by exact Hi. cbn [nth]. assert (E1 : earliest l (nth 0 l 0)). { split; [apply nth_In; exact Hi|]. intros y Hy. apply (In_nth _ _ 0) in Hy. destruct Hy as (j & Hj & <-). destruct j as [|j]; [lia|]. pose proof (sorted_nth l 0 (S j) Ss ltac:(lia)). lia. }
    rewrite (gap_is l _ 0 F) by (left; split; [exact E1|reflexivity]). destruct Em as [A1 A2], E1 as [B1 B2]. specialize (A2 _ B1). specialize (B2 _ A1). lia.
  - rewrite St by exact Hi. cbn [nth]. rewrite IH by lia. rewrite (gap_is l (nth (S i) l 0) (nth (S i) l 0 - nth i l 0) F); [lia|]. right. exists (nth i l 0). split; [apply nth_In; exact Hi|]. split; [|reflexivity]. split; [apply nth_In; lia|]. split; [apply sorted_nth; [exact Ss|lia]|].
    intros y Hy Hl. apply (In_nth _ _ 0) in Hy. destruct Hy as (j & Hj & <-). destruct (Nat.lt_trichotomy j i) as [Q|[->|Q]]; [pose proof (sorted_nth l j i Ss ltac:(lia)); lia|lia|]. destruct (Nat.eq_dec j (S i)) as [->|]; [lia|]. pose proof (sorted_nth l (S i) j Ss ltac:(lia)). lia.
Qed.
Lemma auto_in_order : forall l, modest l -> NoDup l -> l <> [] -> exists ds off, auto_decoding l = (ds, off) /\ (off = 0 <-> StronglySorted Z.lt l) /\ (StronglySorted Z.lt l -> ds = l).
Proof.
  intros l Hm N Ne. destruct (earliest_ex l Ne) as (m & Em). pose proof (modest_bound l Hm) as F. rewrite (auto_spec l m Hm Em). eexists _, _. split; [reflexivity|]. set (ds := decs (gap (sort l)) m l). assert (L : length ds = length l) by apply decs_length.
  destruct (worst_spec l ds 0 (eq_sym L)) as (W1 & W2 & W3). assert (G : StronglySorted Z.lt l -> ds = l) by (intros Ss; apply sorted_decs; assumption). split; [|exact G]. split.
  - intros E. rewrite E in W2. apply (early_sorted l m F N Em). intros i Hi. specialize (W2 i Hi). fold ds. lia.
  - intros Ss. destruct W3 as [W3|(i & Hi & W3)]; [exact W3|]. rewrite (G Ss) in W3 at 1. lia.
Qed.
Lemma auto_strict : forall l, modest l -> l <> [] -> exists ds off, auto_decoding l = (ds, off)
  /\ forall i, (S i < length l)%nat -> (earliest l (nth (S i) l 0) -> nth (S i) ds 0 = nth i ds 0) /\ (~ earliest l (nth (S i) l 0) -> nth i ds 0 < nth (S i) ds 0).
Proof.
  intros l Hm Ne. destruct (earliest_ex l Ne) as (m & Em). destruct (auto_valid l m Hm Em) as (ds & off & E & L & _ & A & _). exists ds, off. split; [exact E|]. intros i Hi. destruct (A (S i) Hi) as [A1 A2]. cbn [nth] in A1, A2. split; [exact A1|].
  intros Hn. destruct (just_or_earliest l (nth (S i) l 0) ltac:(apply nth_In; exact Hi)) as [Q|(p & J)]; [contradiction|]. rewrite (A2 p J). destruct J as (_ & J & _). lia.
Qed.
