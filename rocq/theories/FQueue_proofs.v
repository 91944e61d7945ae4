From Verif Require Import Util Bits_spec Bitstream_proofs4 FQueue_model.
From Coq Require Import ZifyNat.
Local Open Scope Z_scope.

Definition inint (v : Z) : Prop := - 2 ^ 31 <= v < 2 ^ 31.

(** * memory *)
Lemma rd_length m a n : length (rd m a n) = n.
Proof. unfold rd. rewrite map_length. revert a. induction n; intros; cbn; auto. Qed.
Lemma rd_ext m m' a n : (forall x, a <= x < a + Z.of_nat n -> m x = m' x) -> rd m a n = rd m' a n.
Proof.
  intros H. unfold rd. apply map_ext_in. intros x Hx. apply zseq_In in Hx. apply H. exact Hx.
Qed.
Lemma wr_out m a l x : x < a \/ a + zlen l <= x -> wr m a l x = m x.
Proof. intros H. unfold wr. destruct (Z.leb_spec a x), (Z.ltb_spec x (a + zlen l)); cbn; auto; lia. Qed.
Lemma rd_wr_out m a l b n : b + Z.of_nat n <= a \/ a + zlen l <= b -> rd (wr m a l) b n = rd m b n.
Proof. intros H. apply rd_ext. intros x Hx. apply wr_out. lia. Qed.
Lemma rd_S m a n : rd m a (S n) = m a :: rd m (a + 1) n.
Proof. reflexivity. Qed.
Lemma rd_app m a n k : rd m a (n + k) = rd m a n ++ rd m (a + Z.of_nat n) k.
Proof.
  revert a. induction n as [|n IH]; intros a; [cbn [Nat.add]; change (Z.of_nat 0) with 0; rewrite Z.add_0_r; reflexivity|].
  cbn [Nat.add]. rewrite !rd_S, IH. cbn [app]. do 3 f_equal. lia.
Qed.
Lemma rd_wr_same l : forall m a, rd (wr m a l) a (length l) = l.
Proof.
  intros m a. assert (G : forall k, (k <= length l)%nat -> rd (wr m a l) a k = firstn k l).
  { induction k as [|k IH]; intros Hk; [reflexivity|]. replace (S k) with (k + 1)%nat by lia. rewrite rd_app, IH by lia.
    rewrite rd_S. change (rd _ _ 0) with (@nil Z). unfold wr. unfold zlen.
    destruct (Z.leb_spec a (a + Z.of_nat k)), (Z.ltb_spec (a + Z.of_nat k) (a + Z.of_nat (length l))); try lia. cbn [andb].
    replace (Z.to_nat (a + Z.of_nat k - a)) with k by lia.
    clear -Hk. revert k Hk. induction l as [|x l IHl]; intros k Hk; cbn in Hk; [lia|]. destruct k; cbn; [reflexivity|]. f_equal. apply IHl. lia. }
  rewrite G by lia. apply firstn_all.
Qed.
Lemma rd_wr_part m a p s q k : rd (wr m a (p ++ s ++ q)) (a + zlen p) (length s + k) = s ++ rd (wr m a (p ++ s ++ q)) (a + zlen p + zlen s) k.
Proof.
  rewrite rd_app. f_equal. pose proof (rd_wr_same (p ++ s ++ q) m a) as H. rewrite !app_length, !rd_app in H.
  apply app_inv_head_iff with (l := p). 
  assert (E : rd (wr m a (p ++ s ++ q)) a (length p) = p).
  { apply (f_equal (firstn (length p))) in H. rewrite !firstn_app, rd_length, Nat.sub_diag, firstn_all in H. cbn [firstn] in H.
    rewrite app_nil_r in H. rewrite firstn_all2 in H by (rewrite rd_length; lia). rewrite app_nil_r in H. exact H. }
  rewrite E in H. apply app_inv_head in H. f_equal.
  apply (f_equal (firstn (length s))) in H. rewrite !firstn_app, rd_length, Nat.sub_diag, firstn_all in H. cbn [firstn] in H.
  rewrite app_nil_r in H. rewrite firstn_all2 in H by (rewrite rd_length; lia). rewrite app_nil_r in H. exact H.
Qed.
Lemma rd_wr_mid m a p s q : rd (wr m a (p ++ s ++ q)) (a + zlen p) (length s) = s.
Proof. pose proof (rd_wr_part m a p s q 0) as H. rewrite Nat.add_0_r in H. rewrite H. apply app_nil_r. Qed.

Lemma int_of_mod v : inint v -> int_of (v mod 2 ^ 32) = v.
Proof. unfold inint, int_of. intros H. rewrite Z.mod_mod by lia. destruct (Z.ltb_spec (v mod 2 ^ 32) (2 ^ 31)); Z.div_mod_to_equations; lia. Qed.
Lemma int_of_in v : inint v -> int_of v = v.
Proof. unfold inint, int_of. intros H. destruct (Z.ltb_spec (v mod 2 ^ 32) (2 ^ 31)); Z.div_mod_to_equations; lia. Qed.
Lemma le4 v : le_val (le_bytes (v mod 2 ^ 32) 4) = v mod 2 ^ 32.
Proof. apply le_val_le_bytes. change (256 ^ Z.of_nat 4) with (2 ^ 32). apply Z.mod_pos_bound. lia. Qed.
Lemma zl4 v : zlen (le_bytes v 4) = 4.
Proof. reflexivity. Qed.
Lemma set_same m a v : inint v -> get_int (set_int m a v) a = v.
Proof.
  intros H. unfold get_int, set_int. change 4%nat with (length (le_bytes (v mod 2 ^ 32) 4)) at 2. rewrite rd_wr_same, le4. apply int_of_mod, H.
Qed.
Lemma get_wr_out m a l b : b + 4 <= a \/ a + zlen l <= b -> get_int (wr m a l) b = get_int m b.
Proof. intros H. unfold get_int. rewrite rd_wr_out by lia. reflexivity. Qed.
Lemma set_other m a v b : b + 4 <= a \/ a + 4 <= b -> get_int (set_int m a v) b = get_int m b.
Proof. intros H. apply get_wr_out. rewrite zl4. lia. Qed.
Lemma get_ext m m' a : (forall x, a <= x < a + 4 -> m x = m' x) -> get_int m a = get_int m' a.
Proof. intros H. unfold get_int. rewrite (rd_ext m m'); [reflexivity|]. intros; apply H; lia. Qed.
Lemma set_out m a v x : x < a \/ a + 4 <= x -> set_int m a v x = m x.
Proof. intros H. apply wr_out. rewrite zl4. lia. Qed.

(** * invariant *)
Section Proofs.
Variable tsz : nat.
Variable cap : Z.
Hypothesis Hcap : 24 < cap < 2 ^ 31.

Definition isp (p : Z * item) : Z := item_space (snd p).
Definition item_at (m : memory) (p : Z * item) : Prop :=
  get_int m (fst p) = 0x200 /\ get_int m (fst p + 4) = zlen (snd (snd p)) /\ stored tsz m (fst p) (snd p).
Fixpoint chain (m : memory) (L : list (Z * item)) : Prop :=
  match L with
  | p :: ((p' :: _) as L') => get_int m (fst p + 8) = fst p' /\ chain m L'
  | _ => True
  end.
Fixpoint straight (lo : Z) (L : list (Z * item)) (hi : Z) : Prop :=
  match L with [] => lo <= hi | p :: L' => lo <= fst p /\ straight (fst p + isp p) L' hi end.
Definition d0 : Z * item := (0, ([], [])).
Definition first_off (L : list (Z * item)) : Z := fst (hd d0 L).
Definition last_off (L : list (Z * item)) : Z := fst (last L d0).
Definition shape (L : list (Z * item)) : Prop :=
  straight 24 L cap \/ exists A B, A <> [] /\ B <> [] /\ L = A ++ B /\ straight (first_off A) A cap /\ straight 24 B (first_off A).
Record Inv (m : memory) (L : list (Z * item)) : Prop := {
  i_full : full_size m = cap;
  i_cnt : 0 <= deleted m /\ written m <= INT_MAX - 10 /\ written m - deleted m = Z.of_nat (length L);
  i_items : Forall (fun p => item_at m p /\ item_ok tsz (snd p)) L;
  i_chain : chain m L;
  i_ends : L <> [] -> start_offset m = first_off L /\ end_offset m = last_off L;
  i_shape : shape L }.

Lemma isp_pos p : item_ok tsz (snd p) -> isp p = 12 + Z.of_nat tsz + zlen (snd (snd p)) /\ 12 <= isp p /\ isp p < 2 ^ 31.
Proof. intros (H & _ & _ & H2). unfold isp, item_space. unfold zlen in *. rewrite H. lia. Qed.

Lemma straight_app lo A B hi : straight lo (A ++ B) hi <-> exists mid, straight lo A mid /\ straight mid B hi.
Proof.
  revert lo. induction A as [|p A IH]; intros lo; cbn [app straight].
  - split; [intros H; exists lo; split; [lia|exact H]|]. intros (mid & H1 & H2). destruct B as [|q B]; cbn [straight] in *; [lia|]. split; [lia|tauto].
  - rewrite IH. split; [intros (H & mid & H1 & H2); exists mid; auto|]. intros (mid & (H & H1) & H2). split; [auto|]. exists mid; auto.
Qed.
Lemma straight_weak lo lo' L hi hi' : straight lo L hi -> lo' <= lo -> hi <= hi' -> straight lo' L hi'.
Proof.
  revert lo lo'. induction L as [|p L IH]; intros lo lo'; cbn [straight]; [lia|]. intros [H1 H2] H3 H4. split; [lia|]. eapply IH; eauto. lia.
Qed.
Definition oks (L : list (Z * item)) : Prop := Forall (fun p => item_ok tsz (snd p)) L.
Lemma straight_in lo L hi : straight lo L hi -> oks L -> lo <= hi /\ forall p, In p L -> lo <= fst p /\ fst p + isp p <= hi.
Proof.
  revert lo. induction L as [|q L IH]; intros lo; cbn [straight]; [intros; split; [lia|contradiction]|].
  intros [H1 H2] O. inversion O; subst. destruct (isp_pos _ H3) as (_ & P & _). destruct (IH _ H2 H4) as [Q1 Q2].
  split; [lia|]. intros p [<-|Hp]; [lia|]. specialize (Q2 p Hp). lia.
Qed.
Lemma straight_tight lo L hi : L <> [] -> straight lo L hi -> straight (first_off L) L hi /\ lo <= first_off L.
Proof. destruct L as [|p L]; [congruence|]. cbn. intros _ [H1 H2]. unfold first_off. cbn. repeat split; auto; lia. Qed.
Lemma straight_end lo L hi : L <> [] -> straight lo L hi -> straight lo L (fst (last L d0) + isp (last L d0)) /\ fst (last L d0) + isp (last L d0) <= hi.
Proof.
  revert lo. induction L as [|p L IH]; intros lo N; [congruence|]. cbn [straight]. intros [H1 H2].
  destruct L as [|q L]; [cbn in *; repeat split; lia|].
  destruct (IH _ ltac:(discriminate) H2) as [A B]. change (last (p :: q :: L) d0) with (last (q :: L) d0). split; [split; auto|auto].
Qed.

Lemma inv_oks m L : Inv m L -> oks L.
Proof. intros I. eapply Forall_impl; [|apply (i_items _ _ I)]. intros p [_ H]; exact H. Qed.
Lemma shape_in L : shape L -> oks L -> forall p, In p L -> 24 <= fst p /\ fst p + isp p <= cap.
Proof.
  intros [S|(A & B & NA & NB & -> & SA & SB)] O p Hp.
  - apply (straight_in _ _ _ S O); exact Hp.
  - apply Forall_app in O. destruct O as [OA OB]. destruct (straight_in _ _ _ SB OB) as [Q1 Q2]. destruct (straight_in _ _ _ SA OA) as [Q3 Q4].
    apply in_app_or in Hp. destruct Hp as [Hp|Hp]; [specialize (Q4 p Hp)|specialize (Q2 p Hp)]; lia.
Qed.
Lemma inv_in m L : Inv m L -> forall p, In p L -> 24 <= fst p /\ fst p + isp p <= cap /\ 12 <= isp p.
Proof.
  intros I p Hp. pose proof (inv_oks _ _ I) as O. destruct (shape_in _ (i_shape _ _ I) O p Hp). pose proof (proj1 (Forall_forall _ _) O p Hp) as Ok.
  destruct (isp_pos _ Ok). lia.
Qed.
Lemma last_in (L : list (Z * item)) : L <> [] -> In (last L d0) L.
Proof. induction L as [|p [|q L] IH]; [congruence|left; reflexivity|]. intros _. right. apply IH. discriminate. Qed.
Lemma hd_in (L : list (Z * item)) : L <> [] -> In (hd d0 L) L.
Proof. destruct L; [congruence|left; reflexivity]. Qed.

Lemma shape_wrapped L : L <> [] -> oks L -> shape L ->
  (first_off L <= last_off L -> straight 24 L cap) /\
  (last_off L < first_off L -> exists A B, A <> [] /\ B <> [] /\ L = A ++ B /\ straight (first_off L) A cap /\ straight 24 B (first_off L)).
Proof.
  intros NL O [S|(A & B & NA & NB & E & SA & SB)].
  - split; [auto|]. intros Q. exfalso. destruct (straight_tight _ _ _ NL S) as [T _]. destruct (straight_in _ _ _ T O) as [_ K].
    specialize (K _ (last_in _ NL)). unfold last_off in *. lia.
  - assert (F : first_off L = first_off A) by (subst L; destruct A; [congruence|reflexivity]).
    assert (G : last_off L < first_off L).
    { subst L. apply Forall_app in O. destruct O as [OA OB]. destruct (straight_in _ _ _ SB OB) as [_ K]. specialize (K _ (last_in _ NB)).
      pose proof (isp_pos _ (proj1 (Forall_forall _ _) OB _ (last_in _ NB))).
      unfold last_off. rewrite F. assert (La : last (A ++ B) d0 = last B d0). { clear -NB. induction A as [|a A IH]; [reflexivity|]. cbn [app]. destruct (A ++ B) eqn:E; [destruct A; [cbn in E; congruence|discriminate]|]. exact IH. }
      rewrite La. lia. }
    split; [lia|]. intros _. exists A, B. rewrite F. auto.
Qed.

(** free gaps *)
Lemma size_len m L : Inv m L -> size m = Z.of_nat (length L).
Proof. intros I. apply (i_cnt _ _ I). Qed.
Lemma head_eq m L : Inv m L -> head_space m = match L with [] => cap - 24 | _ => if last_off L <? first_off L then 0 else first_off L - 24 end.
Proof.
  intros I. pose proof (i_cnt _ _ I) as (_ & _ & C). unfold head_space. rewrite (i_full _ _ I). destruct L as [|p L].
  - cbn in C. destruct (Z.eqb_spec (written m) (deleted m)); [reflexivity|lia].
  - cbn [length] in C. destruct (Z.eqb_spec (written m) (deleted m)); [lia|]. destruct (i_ends _ _ I ltac:(discriminate)) as [-> ->]. reflexivity.
Qed.
Lemma tail_eq m L : Inv m L -> tail_space tsz m = match L with [] => 0 | _ =>
    let e := last_off L + isp (last L d0) in if last_off L <? first_off L then first_off L - e else cap - e end.
Proof.
  intros I. pose proof (i_cnt _ _ I) as (_ & _ & C). unfold tail_space, item_full_size, body_size. rewrite (i_full _ _ I). destruct L as [|p L].
  - cbn in C. destruct (Z.eqb_spec (written m) (deleted m)); [reflexivity|lia].
  - cbn [length] in C. destruct (Z.eqb_spec (written m) (deleted m)); [lia|]. destruct (i_ends _ _ I ltac:(discriminate)) as [-> ->].
    set (M := p :: L) in *. assert (Hl : In (last M d0) M) by (apply last_in; discriminate).
    pose proof (proj1 (Forall_forall _ _) (i_items _ _ I) _ Hl) as [(_ & B & _) Ok]. destruct (isp_pos _ Ok) as (E & _).
    unfold last_off at 1. rewrite B. unfold IH. cbv zeta. rewrite E. unfold last_off. destruct (_ <? _); lia.
Qed.
Lemma end_full m L : Inv m L -> L <> [] -> end_offset m + item_full_size tsz m (end_offset m) = last_off L + isp (last L d0).
Proof.
  intros I N. destruct (i_ends _ _ I N) as [_ E]. rewrite E. unfold item_full_size, body_size, IH.
  pose proof (proj1 (Forall_forall _ _) (i_items _ _ I) _ (last_in _ N)) as [(_ & B & _) Ok]. destruct (isp_pos _ Ok) as (E1 & _).
  unfold last_off at 2. rewrite B. unfold last_off. lia.
Qed.

(** frame *)
Lemma item_at_ext m m' p : item_ok tsz (snd p) ->
  (forall x, fst p <= x < fst p + isp p -> x < fst p + 8 \/ fst p + 12 <= x -> m x = m' x) -> item_at m p -> item_at m' p.
Proof.
  intros Ok H (A & B & C & D). destruct (isp_pos _ Ok) as (E & E1 & _). destruct Ok as (Ot & _).
  unfold item_at, stored. rewrite <- (get_ext m m'), <- (get_ext m m' (fst p + 4)), <- (rd_ext m m' (fst p + 12)), <- (rd_ext m m' (fst p + 12 + Z.of_nat tsz)); [auto| | | |];
    intros x Hx; apply H; unfold zlen in *; lia.
Qed.
Lemma chain_ext m m' L : (forall p, In p (removelast L) -> get_int m (fst p + 8) = get_int m' (fst p + 8)) -> chain m L -> chain m' L.
Proof.
  induction L as [|p [|q L] IH]; intros H; cbn [chain]; auto. intros [A B]. split.
  - rewrite <- H; [exact A|left; reflexivity].
  - apply IH; [|exact B]. intros r Hr. apply H. right. exact Hr.
Qed.

(** deletion *)
Lemma hdr_frame m m' L : Inv m L -> (forall x, 24 <= x -> m' x = m x) ->
  Forall (fun p => item_at m' p /\ item_ok tsz (snd p)) L /\ chain m' L.
Proof.
  intros I H. split.
  - apply Forall_forall. intros p Hp. pose proof (proj1 (Forall_forall _ _) (i_items _ _ I) _ Hp) as [A Ok]. split; [|exact Ok].
    apply (item_at_ext m m' p Ok); [|exact A]. intros x Hx _. pose proof (inv_in _ _ I p Hp). symmetry. apply H. lia.
  - apply (chain_ext m m'); [|apply (i_chain _ _ I)]. intros p Hp. apply get_ext. intros x Hx. symmetry. apply H.
    assert (Hi : In p L). { clear -Hp. induction L as [|a [|b L] IH]; cbn in *; try contradiction. destruct Hp as [->|Hp]; auto. }
    pose proof (inv_in _ _ I p Hi). lia.
Qed.
Lemma shape_tl p L : oks (p :: L) -> shape (p :: L) -> shape L.
Proof.
  intros O [S|(A & B & NA & NB & E & SA & SB)].
  - left. cbn in S. destruct S as [S1 S2]. eapply straight_weak; [exact S2| |lia]. inversion O; subst. destruct (isp_pos _ H1). lia.
  - destruct A as [|a A]; [congruence|]. injection E as <- ->. inversion O; subst. apply Forall_app in H2. destruct H2 as [OA OB].
    destruct (straight_in _ _ _ SA ltac:(constructor; auto)) as [KA KB].
    destruct A as [|a2 A].
    + left. cbn [app]. eapply straight_weak; [exact SB|lia|]. exact KA.
    + right. exists (a2 :: A), B. split; [discriminate|]. split; [auto|]. split; [reflexivity|]. cbn [straight] in SA. destruct SA as (S1 & S2 & S3).
      unfold first_off in *. cbn [hd] in *. destruct (isp_pos _ H1) as (_ & P & _). split; [cbn [straight]; split; [lia|exact S3]|].
      eapply straight_weak; [exact SB|lia|lia].
Qed.
Lemma delete_inv m p L : Inv m (p :: L) -> Inv (delete_direct m) L /\ (forall x, 24 <= x \/ x < 0 -> delete_direct m x = m x).
Proof.
  intros I. pose proof (i_cnt _ _ I) as (C1 & C2 & C3). cbn [length] in C3.
  assert (Rd : inint (deleted m + 1)) by (unfold inint, INT_MAX in *; lia).
  unfold delete_direct. set (m1 := set_int m 20 (deleted m + 1)).
  assert (D1 : deleted m1 = deleted m + 1) by (apply set_same, Rd).
  assert (W1 : written m1 = written m) by (apply set_other; lia).
  assert (F1 : full_size m1 = full_size m) by (apply set_other; lia).
  assert (E1 : end_offset m1 = end_offset m) by (apply set_other; lia).
  unfold size. rewrite W1, D1. destruct (i_ends _ _ I ltac:(discriminate)) as [Es Ee].
  destruct L as [|q L].
  - cbn [length] in C3. destruct (Z.eqb_spec (written m - (deleted m + 1)) 0); [|lia].
    split; [|intros x Hx; apply set_out; lia].
    constructor; [rewrite F1; apply (i_full _ _ I)|rewrite D1, W1; cbn [length]; lia|constructor|exact Logic.I|congruence|left; cbn; lia].
  - cbn [length] in C3. destruct (Z.eqb_spec (written m - (deleted m + 1)) 0); [lia|].
    pose proof (i_chain _ _ I) as [Ch Ch']. unfold next_item. rewrite Es. change (first_off (p :: q :: L)) with (fst p). rewrite Ch.
    set (m2 := set_int m1 8 (fst q)).
    assert (Fr : forall x, 24 <= x \/ x < 0 -> m2 x = m x). { intros x Hx. unfold m2, m1. rewrite !set_out by lia. reflexivity. }
    split; [|exact Fr].
    assert (Hq := inv_in _ _ I q ltac:(right; left; reflexivity)).
    assert (Rq : inint (fst q)) by (unfold inint; lia).
    destruct (hdr_frame m m2 _ I) as [HI HC]; [intros; apply Fr; lia|].
    constructor.
    + unfold m2. unfold full_size in *. rewrite set_other by lia. rewrite F1. apply (i_full _ _ I).
    + assert (deleted m2 = deleted m1) by (apply set_other; lia). assert (written m2 = written m1) by (apply set_other; lia).
      rewrite H, H0, D1, W1. cbn [length]. lia.
    + inversion HI; subst. auto.
    + cbn [chain] in HC. tauto.
    + intros _. split.
      * unfold m2, start_offset. rewrite set_same by exact Rq. reflexivity.
      * unfold m2. unfold end_offset in *. rewrite set_other by lia. rewrite E1, Ee. reflexivity.
    + apply (shape_tl p); [apply (inv_oks _ _ I)|apply (i_shape _ _ I)].
Qed.

(** placing *)
Lemma last_app_one (L : list (Z * item)) p : last (L ++ [p]) d0 = p.
Proof. induction L as [|a L IH]; [reflexivity|]. cbn [app]. destruct (L ++ [p]) eqn:E; [destruct L; discriminate|]. exact IH. Qed.
Lemma removelast_in (L : list (Z * item)) p : In p (removelast (L ++ [p])) -> In p L.
Proof. rewrite removelast_last. auto. Qed.
Lemma chain_snoc m L p : chain m L -> (L <> [] -> get_int m (last_off L + 8) = fst p) -> chain m (L ++ [p]).
Proof.
  induction L as [|a [|b L] IH]; intros C H; [exact Logic.I| |].
  - cbn. split; [|exact Logic.I]. apply (H ltac:(discriminate)).
  - destruct C as [C1 C2]. cbn [app]. split; [exact C1|]. apply IH; [exact C2|]. intros _. apply H. discriminate.
Qed.

Lemma fits_spec m space : fits tsz m space = true <-> space <= tail_space tsz m \/ space <= head_space m.
Proof. unfold fits. destruct (Z.ltb_spec (tail_space tsz m) space), (Z.ltb_spec (head_space m) space); cbn; split; intros; try lia; auto. Qed.

Lemma place_inv m L t data : Inv m L -> item_ok tsz (t, data) -> let space := IH tsz + zlen data in
  fits tsz m space = true ->
  exists m' o, place tsz cap t data space m = Pushed m' /\ Inv m' (L ++ [(o, (t, data))]) /\ (forall x, x < 0 \/ cap <= x -> m' x = m x)
    /\ o = (match L with [] => 24 | _ => if space <=? tail_space tsz m then last_off L + isp (last L d0) else 24 end).
Proof.
  intros I Ok space Hf. unfold place. rewrite Hf.
  assert (Sp : isp (0, (t, data)) = space). { destruct (isp_pos (0, (t, data)) Ok) as [-> _]. unfold space, IH. cbn [snd]. lia. }
  assert (Sp12 : 12 <= space) by (unfold space, IH, zlen; lia).
  rewrite (size_len _ _ I).
  set (item := le_bytes 512 4 ++ le_bytes (zlen data) 4 ++ le_bytes (INT_MIN mod 2 ^ 32) 4 ++ t ++ data).
  assert (Zi : zlen item = space).
  { unfold item. rewrite !zlen_app, !zl4. unfold space, IH, zlen. destruct Ok as (Q & _). cbn in Q. rewrite Q. lia. }
  set (offset := if (space <=? tail_space tsz m) && negb (Z.of_nat (length L) =? 0) then end_offset m + item_full_size tsz m (end_offset m) else HDR).
  (* the new region is free *)
  assert (Hreg : 24 <= offset /\ offset + space <= cap /\ shape (L ++ [(offset, (t, data))])
     /\ forall p, In p L -> offset + space <= fst p \/ fst p + isp p <= offset).
  { pose proof (head_eq _ _ I) as Hh. pose proof (tail_eq _ _ I) as Ht. apply fits_spec in Hf.
    assert (OI := fun p => inv_in _ _ I p). pose proof (inv_oks _ _ I) as Ks.
    destruct L as [|p0 L0].
    - assert (offset = 24). { unfold offset. cbn [length]. change (Z.of_nat 0) with 0. rewrite Z.eqb_refl, Bool.andb_false_r. reflexivity. }
      rewrite H in *. rewrite Ht, Hh in Hf. repeat split; try lia; [|contradiction]. left. cbn [app straight fst]. unfold isp in *. cbn [snd fst] in *. lia.
    - set (M := p0 :: L0) in *. assert (NM : M <> []) by discriminate.
      assert (Zn : (Z.of_nat (length M) =? 0) = false) by (apply Z.eqb_neq; unfold M; cbn [length]; lia).
      assert (Hh' : head_space m = if last_off M <? first_off M then 0 else first_off M - 24) by exact Hh.
      assert (Ht' : tail_space tsz m = if last_off M <? first_off M then first_off M - (last_off M + isp (last M d0)) else cap - (last_off M + isp (last M d0))) by exact Ht.
      clear Hh Ht. unfold offset. rewrite Zn. cbn [negb]. rewrite Bool.andb_true_r, (end_full _ _ I NM).
      destruct (shape_wrapped M NM Ks (i_shape _ _ I)) as [SS SW].
      destruct (Z.leb_spec space (tail_space tsz m)) as [Tl|Tl].
      + destruct (Z.ltb_spec (last_off M) (first_off M)) as [Wr|Wr]; rewrite Ht' in Tl.
        * destruct (SW Wr) as (A & B & NA & NB & EM & SA & SB).
          assert (FA : first_off M = first_off A) by (rewrite EM; destruct A; [congruence|reflexivity]).
          assert (LB : last M d0 = last B d0). { rewrite EM. clear -NB. induction A as [|a A IH]; [reflexivity|]. cbn [app]. destruct (A ++ B) eqn:E; [destruct A; [cbn in E; congruence|discriminate]|]. exact IH. }
          destruct (straight_end _ _ _ NB SB) as [SBe Be]. rewrite <- LB in SBe, Be.
          assert (Kab : oks A /\ oks B) by (rewrite EM in Ks; apply Forall_app in Ks; exact Ks). destruct Kab as [KA KB].
          destruct (straight_in _ _ _ SA KA) as [QA QA']. destruct (straight_in _ _ _ SBe KB) as [QB QB'].
          unfold last_off in *. set (e := fst (last M d0) + isp (last M d0)) in *.
          split; [lia|]. split; [lia|]. split.
          -- right. exists A, (B ++ [(e, (t, data))]). split; [auto|]. split; [destruct B; discriminate|]. split; [rewrite EM, app_assoc; reflexivity|].
             rewrite <- FA. split; [exact SA|]. apply straight_app. exists e. split; [exact SBe|]. cbn [straight fst]. unfold isp in *. cbn [snd] in *. lia.
          -- intros p Hp. rewrite EM in Hp. apply in_app_or in Hp. destruct Hp as [Hp|Hp]; [specialize (QA' p Hp)|specialize (QB' p Hp)]; lia.
        * specialize (SS Wr). destruct (straight_end _ _ _ NM SS) as [Se Le]. destruct (straight_in _ _ _ Se Ks) as [Q1 Q2].
          unfold last_off in *. set (e := fst (last M d0) + isp (last M d0)) in *. split; [lia|]. split; [lia|]. split.
          -- left. apply straight_app. exists e. split; [exact Se|]. cbn [straight fst]. unfold isp in *. cbn [snd] in *. lia.
          -- intros p Hp. specialize (Q2 p Hp). lia.
      + destruct Hf as [Hf|Hf]; [lia|]. rewrite Hh' in Hf.
        destruct (Z.ltb_spec (last_off M) (first_off M)) as [Wr|Wr]; [lia|].
        specialize (SS Wr). destruct (straight_tight _ _ _ NM SS) as [St F24]. destruct (straight_in _ _ _ St Ks) as [Q1 Q2].
        unfold HDR. split; [lia|]. split; [lia|]. split.
        * right. exists M, [(24, (t, data))]. split; [auto|]. split; [discriminate|]. split; [reflexivity|]. split; [exact St|].
          cbn [straight fst]. unfold isp in *. cbn [snd] in *. lia.
        * intros p Hp. specialize (Q2 p Hp). lia. }
  destruct Hreg as (R1 & R2 & R3 & R4). rewrite Zi.
  destruct (Z.leb_spec 0 offset); [|lia]. destruct (Z.leb_spec (offset + space) cap); [|lia]. cbn [andb].
  set (m1 := wr m offset item). set (P := (offset, (t, data))).
  pose proof (i_cnt _ _ I) as (C1 & C2 & C3).
  assert (Ro : inint offset) by (unfold inint; lia).
  set (m2 := if Z.of_nat (length L) =? 0 then set_int m1 8 offset else set_int m1 (end_offset m + 8) offset).
  (* m2 outside header word 8 and last's link *)
  assert (Link : exists a, m2 = set_int m1 a offset /\ ((L = [] /\ a = 8) \/ (L <> [] /\ a = last_off L + 8))).
  { unfold m2. destruct (Z.eqb_spec (Z.of_nat (length L)) 0) as [E|E].
    - exists 8. split; [reflexivity|]. left. destruct L; [auto|cbn in E; lia].
    - exists (end_offset m + 8). split; [reflexivity|]. right. assert (N : L <> []) by (destruct L; [cbn in E; lia|discriminate]).
      split; [exact N|]. destruct (i_ends _ _ I N) as [_ ->]. reflexivity. }
  destruct Link as (a & Em2 & La).
  assert (Hla : L <> [] -> 24 <= last_off L /\ (offset + space <= last_off L \/ last_off L + 12 <= offset) /\ last_off L + 12 <= cap).
  { intros N. pose proof (inv_in _ _ I _ (last_in _ N)). pose proof (R4 _ (last_in _ N)). unfold last_off. lia. }
  assert (Ga : forall b, 0 <= b -> b + 4 <= 24 -> b <> 8 -> (b + 4 <= 8 \/ 12 <= b) -> get_int m2 b = get_int m b).
  { intros b B1 B2 B3 B4. rewrite Em2. rewrite set_other; [unfold m1; rewrite get_wr_out; [reflexivity|lia]|].
    destruct La as [[_ ->]|[N ->]]; [lia|]. specialize (Hla N). lia. }
  set (m3 := set_int (set_int m2 12 offset) 16 (written m + 1)).
  assert (Rw : inint (written m + 1)) by (unfold inint, INT_MAX in *; lia).
  assert (W3 : written m3 = written m + 1) by (apply set_same, Rw).
  assert (D3 : deleted m3 = deleted m). { unfold m3, deleted. rewrite !set_other by lia. apply Ga; lia. }
  assert (F3 : full_size m3 = cap). { unfold m3, full_size. rewrite !set_other by lia. rewrite Ga by lia. apply (i_full _ _ I). }
  assert (E3 : end_offset m3 = offset). { unfold m3, end_offset. rewrite set_other by lia. apply set_same, Ro. }
  assert (S3 : start_offset m3 = first_off (L ++ [P])).
  { unfold m3, start_offset. rewrite !set_other by lia. rewrite Em2. destruct La as [[-> ->]|[N ->]].
    - rewrite set_same by exact Ro. reflexivity.
    - specialize (Hla N). rewrite set_other by lia. unfold m1. rewrite get_wr_out by lia.
      destruct (i_ends _ _ I N) as [E _]. unfold start_offset in E. rewrite E. destruct L; [congruence|reflexivity]. }
  (* memory of items *)
  assert (Fr : forall x, 24 <= x -> (x < offset \/ offset + space <= x) -> (L <> [] -> x < last_off L + 8 \/ last_off L + 12 <= x) -> m3 x = m x).
  { intros x X1 X2 X3. unfold m3. rewrite !set_out by lia. rewrite Em2. rewrite set_out.
    - unfold m1. apply wr_out. lia.
    - destruct La as [[_ ->]|[N ->]]; [lia|]. specialize (X3 N). lia. }
  assert (Hitems : Forall (fun p => item_at m3 p /\ item_ok tsz (snd p)) (L ++ [P])).
  { apply Forall_app. split.
    - apply Forall_forall. intros p Hp. pose proof (proj1 (Forall_forall _ _) (i_items _ _ I) _ Hp) as [A Okp]. split; [|exact Okp].
      apply (item_at_ext m m3 p Okp); [|exact A]. intros x X1 X2. pose proof (inv_in _ _ I p Hp) as Bp. pose proof (R4 p Hp) as Dp.
      symmetry. apply Fr; [lia|lia|].
      (* the link word of the last item: either p is last, or disjoint from it *)
      intros N. pose proof (last_in _ N) as HL.
      assert (Hd : p = last L d0 \/ fst p + isp p <= last_off L \/ last_off L + isp (last L d0) <= fst p).
      { clear -I Hp N. pose proof (inv_oks _ _ I) as O. assert (St : forall lo M hi, straight lo M hi -> oks M -> forall q, In q M -> q = last M d0 \/ fst q + isp q <= fst (last M d0)).
        { clear. intros lo M hi. revert lo. induction M as [|x M IHM]; intros lo S O q Hq; [contradiction|].
          destruct M as [|y M]; [destruct Hq as [->|[]]; left; reflexivity|]. destruct S as [S1 S2]. inversion O; subst.
          change (last (x :: y :: M) d0) with (last (y :: M) d0). destruct Hq as [->|Hq]; [|apply (IHM _ S2 H2 _ Hq)].
          right. destruct (straight_in _ _ _ S2 H2) as [_ K]. apply (K _ (last_in (y :: M) ltac:(discriminate))). }
        destruct (i_shape _ _ I) as [S|(A & B & NA & NB & E & SA & SB)].
        - destruct (St _ _ _ S O p Hp) as [->|Q]; [auto|]. right. left. exact Q.
        - subst L. apply Forall_app in O. destruct O as [OA OB].
          assert (La : last (A ++ B) d0 = last B d0). { clear -NB. induction A as [|a A IH]; [reflexivity|]. cbn [app]. destruct (A ++ B) eqn:E; [destruct A; [cbn in E; congruence|discriminate]|]. exact IH. }
          unfold last_off. rewrite La. apply in_app_or in Hp. destruct Hp as [Hp|Hp].
          + right. right. destruct (straight_in _ _ _ SA OA) as [_ K1]. destruct (straight_in _ _ _ SB OB) as [_ K2]. specialize (K1 p Hp). specialize (K2 _ (last_in _ NB)). lia.
          + destruct (St _ _ _ SB OB p Hp) as [->|Q]; [auto|]. right. left. exact Q. }
      destruct Hd as [->|Hd]; [unfold last_off; lia|]. pose proof (inv_in _ _ I _ HL). unfold last_off in *. lia.
    - constructor; [|constructor]. split; [|exact Ok].
      assert (Rd : forall b n, offset <= b -> b + Z.of_nat n <= offset + space -> rd m3 b n = rd m1 b n).
      { intros b n B1 B2. apply rd_ext. intros x Hx. unfold m3. rewrite !set_out by lia. rewrite Em2. apply set_out.
        destruct La as [[_ ->]|[N ->]]; [lia|]. specialize (Hla N). lia. }
      unfold item_at, P. cbn [fst snd].
      assert (G0 : get_int m3 offset = 512).
      { unfold get_int. rewrite Rd by lia. unfold m1, item. pose proof (rd_wr_mid m offset [] (le_bytes 512 4) (le_bytes (zlen data) 4 ++ le_bytes (INT_MIN mod 2 ^ 32) 4 ++ t ++ data)) as Q.
        rewrite zlen_nil, Z.add_0_r in Q. cbn [app] in Q. change (length (le_bytes 512 4)) with 4%nat in Q. cbn [app] in *. rewrite Q. reflexivity. }
      assert (Zd : 0 <= zlen data < 2 ^ 31) by (destruct Ok as (_ & _ & _ & K); cbn in K; unfold zlen in *; lia).
      assert (G4 : get_int m3 (offset + 4) = zlen data).
      { unfold get_int. rewrite Rd by lia. unfold m1, item. pose proof (rd_wr_mid m offset (le_bytes 512 4) (le_bytes (zlen data) 4) (le_bytes (INT_MIN mod 2 ^ 32) 4 ++ t ++ data)) as Q.
        rewrite zl4 in Q. change (length (le_bytes (zlen data) 4)) with 4%nat in Q. rewrite Q.
        replace (zlen data) with (zlen data mod 2 ^ 32) at 1 by (apply Z.mod_small; lia). rewrite le4. apply int_of_mod. unfold inint. lia. }
      destruct Ok as (Ot & _). cbn [fst snd] in Ot.
      split; [exact G0|]. split; [exact G4|]. unfold stored. cbn [fst snd]. split.
      + rewrite Rd by (unfold space, IH, zlen; lia). unfold m1, item.
        pose proof (rd_wr_mid m offset (le_bytes 512 4 ++ le_bytes (zlen data) 4 ++ le_bytes (INT_MIN mod 2 ^ 32) 4) t data) as Q.
        rewrite <- !app_assoc in Q. rewrite !zlen_app, !zl4, Ot in Q. exact Q.
      + rewrite Rd by (unfold space, IH, zlen; lia). unfold m1, item.
        pose proof (rd_wr_mid m offset (le_bytes 512 4 ++ le_bytes (zlen data) 4 ++ le_bytes (INT_MIN mod 2 ^ 32) 4 ++ t) data []) as Q.
        rewrite app_nil_r in Q. rewrite <- !app_assoc in Q. rewrite !zlen_app, !zl4 in Q. assert (Zt : zlen t = Z.of_nat tsz) by (unfold zlen; rewrite Ot; reflexivity). rewrite Zt in Q.
        replace (offset + (4 + (4 + (4 + Z.of_nat tsz)))) with (offset + 12 + Z.of_nat tsz) in Q by lia. exact Q. }
  assert (Hchain : chain m3 (L ++ [P])).
  { apply chain_snoc.
    - apply (chain_ext m m3); [|apply (i_chain _ _ I)]. intros p Hp.
      assert (Hi : In p L). { clear -Hp. induction L as [|a0 [|b0 L0] IH0]; cbn in *; try contradiction. destruct Hp as [->|Hp]; auto. }
      pose proof (inv_in _ _ I p Hi) as Bp. pose proof (R4 p Hi) as Dp.
      apply get_ext. intros x Hx. symmetry. apply Fr; [lia|lia|]. intros N.
      (* p is not the last: link words are disjoint *)
      assert (Hd : fst p + isp p <= last_off L \/ last_off L + isp (last L d0) <= fst p).
      { clear -I Hp N. pose proof (inv_oks _ _ I) as O.
        assert (St : forall lo M hi, straight lo M hi -> oks M -> forall q, In q (removelast M) -> fst q + isp q <= fst (last M d0)).
        { clear. intros lo M hi. revert lo. induction M as [|x M IHM]; intros lo S O q Hq; [contradiction|].
          destruct M as [|y M]; [contradiction|]. destruct S as [S1 S2]. inversion O; subst.
          change (last (x :: y :: M) d0) with (last (y :: M) d0). destruct Hq as [->|Hq]; [|apply (IHM _ S2 H2 _ Hq)].
          destruct (straight_in _ _ _ S2 H2) as [_ K]. apply (K _ (last_in (y :: M) ltac:(discriminate))). }
        destruct (i_shape _ _ I) as [S|(A & B & NA & NB & E & SA & SB)].
        - left. apply (St _ _ _ S O p Hp).
        - subst L. apply Forall_app in O. destruct O as [OA OB].
          assert (La : last (A ++ B) d0 = last B d0). { clear -NB. induction A as [|a A IH]; [reflexivity|]. cbn [app]. destruct (A ++ B) eqn:E; [destruct A; [cbn in E; congruence|discriminate]|]. exact IH. }
          unfold last_off. rewrite La. rewrite removelast_app in Hp by exact NB. apply in_app_or in Hp. destruct Hp as [Hp|Hp].
          + right. destruct (straight_in _ _ _ SA OA) as [_ K1]. destruct (straight_in _ _ _ SB OB) as [_ K2]. specialize (K1 p Hp). specialize (K2 _ (last_in _ NB)). lia.
          + left. apply (St _ _ _ SB OB p Hp). }
      pose proof (inv_in _ _ I _ (last_in _ N)). unfold last_off in *. lia.
    - intros N. destruct La as [[E _]|[_ Ea]]; [congruence|]. specialize (Hla N). unfold m3. rewrite !set_other by lia. rewrite Em2, Ea. apply set_same, Ro. }
  assert (Out : forall x, x < 0 \/ cap <= x -> m3 x = m x).
  { intros x Hx. unfold m3. rewrite !set_out by lia. rewrite Em2. rewrite set_out.
    - unfold m1. apply wr_out. lia.
    - destruct La as [[_ ->]|[N ->]]; [lia|]. specialize (Hla N). lia. }
  assert (Len : length (L ++ [P]) = S (length L)) by (rewrite app_length; cbn; lia).
  assert (Eo : offset = (match L with [] => 24 | _ => if space <=? tail_space tsz m then last_off L + isp (last L d0) else 24 end)).
  { unfold offset. destruct L as [|p0 L0]; [cbn [length]; change (Z.of_nat 0) with 0; rewrite Z.eqb_refl, Bool.andb_false_r; reflexivity|].
    replace (Z.of_nat (length (p0 :: L0)) =? 0) with false by (symmetry; apply Z.eqb_neq; cbn [length]; lia).
    cbn [negb]. rewrite Bool.andb_true_r, (end_full _ _ I ltac:(discriminate)). reflexivity. }
  rewrite W3, D3. unfold INT_MAX in *.
  destruct (Z.ltb_spec (2 ^ 31 - 1 - 10) (written m + 1)) as [Big|Small].
  - set (m4 := set_int (set_int m3 16 (written m + 1 - deleted m)) 20 0). change (exists m' o, Pushed m4 = Pushed m' /\ Inv m' (L ++ [(o, (t, data))]) /\ (forall x, x < 0 \/ cap <= x -> m' x = m x) /\ o = (match L with [] => 24 | _ => if space <=? tail_space tsz m then last_off L + isp (last L d0) else 24 end)).
    assert (Rl : inint (written m + 1 - deleted m)) by (unfold inint; lia).
    assert (Hll : Z.of_nat (length L) * 12 <= cap).
    { (* blocks are at least 12 bytes and disjoint inside the block *)
      clear -I Hcap. pose proof (inv_oks _ _ I) as O.
      assert (St : forall lo M hi, straight lo M hi -> oks M -> lo + 12 * Z.of_nat (length M) <= hi).
      { clear. intros lo M hi. revert lo. induction M as [|x M IHM]; intros lo S O; [cbn in *; lia|]. destruct S as [S1 S2]. inversion O; subst.
        specialize (IHM _ S2 H2). destruct (isp_pos _ H1) as (_ & Q & _). cbn [length]. lia. }
      destruct (i_shape _ _ I) as [S|(A & B & NA & NB & -> & SA & SB)].
      - specialize (St _ _ _ S O). lia.
      - apply Forall_app in O. destruct O as [OA OB]. pose proof (St _ _ _ SA OA). pose proof (St _ _ _ SB OB). rewrite app_length. lia. }
    exists m4, offset. split; [reflexivity|]. fold P.
    assert (Fr4 : forall x, 24 <= x \/ x < 0 -> m4 x = m3 x) by (intros x Hx; unfold m4; rewrite !set_out by lia; reflexivity).
    assert (W4 : written m4 = written m + 1 - deleted m). { unfold m4, written. rewrite set_other by lia. apply set_same, Rl. }
    assert (D4 : deleted m4 = 0). { apply set_same. unfold inint. lia. }
    assert (G4 : forall b, 0 <= b -> b + 4 <= 16 -> get_int m4 b = get_int m3 b) by (intros b B1 B2; unfold m4; rewrite !set_other by lia; reflexivity).
    split; [|split; [intros x Hx; rewrite Fr4 by lia; apply Out, Hx|exact Eo]].
    assert (B24 : forall p, In p (L ++ [P]) -> 24 <= fst p).
    { intros p Hp. apply in_app_or in Hp. destruct Hp as [Hp|[<-|[]]]; [apply (inv_in _ _ I p Hp)|exact R1]. }
    constructor.
    + unfold full_size. rewrite G4 by lia. exact F3.
    + rewrite D4, W4, Len. unfold INT_MAX. lia.
    + apply Forall_forall. intros p Hp. pose proof (proj1 (Forall_forall _ _) Hitems p Hp) as [A Okp]. split; [|exact Okp].
      apply (item_at_ext m3 m4 p Okp); [|exact A]. intros x Hx _. symmetry. apply Fr4. left. specialize (B24 p Hp). lia.
    + apply (chain_ext m3 m4); [|exact Hchain]. intros p Hp. apply get_ext. intros x Hx. symmetry. apply Fr4. left.
      rewrite removelast_last in Hp. specialize (B24 p ltac:(apply in_or_app; auto)). lia.
    + intros _. unfold start_offset, end_offset. rewrite !G4 by lia. split; [exact S3|]. unfold last_off. rewrite last_app_one. exact E3.
    + exact R3.
  - exists m3, offset. split; [reflexivity|]. split; [|split; [exact Out|exact Eo]]. fold P.
    constructor; [exact F3|rewrite D3, W3, Len; unfold INT_MAX; lia|exact Hitems|exact Hchain| |exact R3].
    intros _. split; [exact S3|]. unfold last_off. rewrite last_app_one. exact E3.
Qed.
End Proofs.
