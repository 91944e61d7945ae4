(** Proofs about Cfile_model. *)
From Coq Require Import Permutation ZifyBool ZifyNat.
From Verif Require Import Util Cfile_model.
Local Open Scope Z_scope.

Lemma list_ext : forall (a b : list Z), length a = length b -> (forall i, nth i a 0 = nth i b 0) -> a = b.
Proof.
  induction a as [|x a IH]; intros [|y b] L H; try discriminate; [reflexivity|]. f_equal; [exact (H 0%nat)|]. apply IH; [cbn in L; lia|]. intros i. exact (H (S i)).
Qed.
Lemma nth_repeat0 : forall n i, nth i (repeat 0 n) 0 = 0.
Proof. induction n as [|n IH]; intros [|i]; cbn; auto. Qed.
Lemma nth_skipn : forall (l : list Z) n i, nth i (skipn n l) 0 = nth (n + i) l 0.
Proof. induction l as [|x l IH]; intros [|n] i; cbn [skipn]; try reflexivity; [destruct i; reflexivity|]. rewrite IH. reflexivity. Qed.
Lemma nth_firstn : forall (l : list Z) n i, (i < n)%nat -> nth i (firstn n l) 0 = nth i l 0.
Proof. induction l as [|x l IH]; intros [|n] [|i] H; cbn; try reflexivity; try lia. apply IH. lia. Qed.
Lemma over_length : forall c p b, b <> [] -> length (overwritten c p b) = Nat.max (length c) (p + length b).
Proof.
  intros c p b H. unfold overwritten. destruct b as [|x b]; [congruence|]. rewrite !app_length, firstn_length, skipn_length, app_length, repeat_length. lia.
Qed.
Lemma over_nth : forall c p b i, nth i (overwritten c p b) 0 = if (p <=? i)%nat && (i <? p + length b)%nat then nth (i - p) b 0 else nth i c 0.
Proof.
  intros c p b i. unfold overwritten. destruct b as [|x b].
  - cbn [length]. replace ((p <=? i)%nat && (i <? p + 0)%nat) with false by lia. reflexivity.
  - set (w := x :: b). assert (L : length (firstn p (c ++ repeat 0 (p - length c))) = p) by (rewrite firstn_length, app_length, repeat_length; lia).
    destruct ((p <=? i)%nat) eqn:A; cbn [andb].
    + rewrite app_nth2 by lia. rewrite L. destruct ((i <? p + length w)%nat) eqn:B; [apply app_nth1; lia|]. rewrite app_nth2 by lia. rewrite nth_skipn. f_equal. lia.
    + rewrite app_nth1 by lia. rewrite nth_firstn by lia. destruct (Nat.lt_ge_cases i (length c)) as [C|C]; [apply app_nth1; exact C|]. rewrite app_nth2 by exact C. rewrite nth_repeat0, nth_overflow by exact C. reflexivity.
Qed.
Lemma over_app : forall c p x y, overwritten (overwritten c p x) (p + length x) y = overwritten c p (x ++ y).
Proof.
  intros c p x y. destruct x as [|a x]; [cbn [app length]; rewrite Nat.add_0_r; reflexivity|]. destruct y as [|b y]; [rewrite app_nil_r; reflexivity|].
  apply list_ext.
  - rewrite !over_length by discriminate. rewrite app_length. lia.
  - intros i. rewrite !over_nth. rewrite app_length. set (u := a :: x). set (v := b :: y).
    destruct ((p + length u <=? i)%nat && (i <? p + length u + length v)%nat) eqn:A.
    + replace ((p <=? i)%nat && (i <? p + (length u + length v))%nat) with true by lia. rewrite app_nth2 by lia. f_equal. lia.
    + destruct ((p <=? i)%nat && (i <? p + length u)%nat) eqn:B.
      * replace ((p <=? i)%nat && (i <? p + (length u + length v))%nat) with true by lia. rewrite app_nth1 by lia. reflexivity.
      * replace ((p <=? i)%nat && (i <? p + (length u + length v))%nat) with false by lia. reflexivity.
Qed.
Definition placed (r : request) : Prop := match r with Put p _ => 0 <= p | Get _ _ => True end.
Lemma done_comm : forall c a b, placed a -> placed b -> disjoint a b -> done (done c a) b = done (done c b) a.
Proof.
  intros c [p x|p n] [q y|q m] A B D; try reflexivity. cbn in *. destruct x as [|x0 x]; [reflexivity|]. destruct y as [|y0 y]; [reflexivity|]. unfold zlen in D. apply list_ext.
  - rewrite !over_length by discriminate. lia.
  - intros i. rewrite !over_nth. set (u := x0 :: x) in *. set (v := y0 :: y) in *.
    destruct ((Z.to_nat q <=? i)%nat && (i <? Z.to_nat q + length v)%nat) eqn:E1; destruct ((Z.to_nat p <=? i)%nat && (i <? Z.to_nat p + length u)%nat) eqn:E2; try reflexivity. exfalso. lia.
Qed.
Lemma disjoint_sym : forall a b, disjoint a b -> disjoint b a.
Proof. intros [p x|p n] [q y|q m] H; cbn in *; try exact Logic.I. destruct H; [right|left]; assumption. Qed.
Lemma each_pair_perm : forall l l', Permutation l l' -> each_pair disjoint l -> each_pair disjoint l'.
Proof.
  intros l l' P. induction P as [|a l l' P IH|a b l|l l1 l2 P1 IH1 P2 IH2]; intros H.
  - exact H.
  - cbn in *. destruct H as [H1 H2]. split; [|apply IH; exact H2]. eapply Permutation_Forall; eassumption.
  - cbn in *. destruct H as (H1 & H2 & H3). pose proof (Forall_inv H1). pose proof (Forall_inv_tail H1). split; [constructor; [apply disjoint_sym; assumption|exact H2]|]. split; assumption.
  - apply IH2, IH1, H.
Qed.
Lemma all_done_perm : forall l l', Permutation l l' -> Forall placed l -> each_pair disjoint l -> forall c, all_done c l = all_done c l'.
Proof.
  intros l l' P. induction P as [|a l l' P IH|a b l|l l1 l2 P1 IH1 P2 IH2]; intros F H c.
  - reflexivity.
  - cbn. apply IH; [exact (Forall_inv_tail F)|apply H].
  - unfold all_done. cbn [fold_left]. f_equal. destruct H as (H1 & _). apply done_comm; [exact (Forall_inv F)|exact (Forall_inv (Forall_inv_tail F))|exact (Forall_inv H1)].
  - rewrite IH1 by assumption. apply IH2; [eapply Permutation_Forall; eassumption|eapply each_pair_perm; eassumption].
Qed.

(** ** A row of writes *)
Lemma writes_spec : forall l h, 0 <= h_pos h -> exists rs, writes h l = (mkH (h_pos h + zlen (concat l)) (h_stat h), rs)
  /\ Forall placed rs /\ Forall (fun r => match r with Put q _ => h_pos h <= q | Get _ _ => True end) rs /\ each_pair disjoint rs /\ forall c, all_done c rs = overwritten c (Z.to_nat (h_pos h)) (concat l).
Proof.
  induction l as [|b l IH]; intros h H.
  - exists []. cbn [writes concat]. rewrite Z.add_0_r. destruct h; cbn in *. split; [reflexivity|]. split; [constructor|]. split; [constructor|]. split; [exact Logic.I|]. intros c. reflexivity.
  - cbn [writes concat]. unfold write. cbn [h_pos h_stat]. destruct (IH (mkH (h_pos h + zlen b) (h_stat h))) as (rs & E & F1 & F2 & F3 & F4); [cbn; unfold zlen; lia|]. cbn [h_pos h_stat] in *. rewrite E. exists (Put (h_pos h) b :: rs).
    split; [f_equal; f_equal; rewrite zlen_app; lia|]. split; [constructor; [exact H|exact F1]|]. split.
    { constructor; [lia|]. eapply Forall_impl; [|exact F2]. intros [q x|q n]; cbn; unfold zlen; lia. }
    split.
    { cbn. split; [|exact F3]. eapply Forall_impl; [|exact F2]. intros [q x|q n]; cbn; lia. }
    intros c. unfold all_done in *. cbn [fold_left done]. rewrite F4. replace (Z.to_nat (h_pos h + zlen b)) with (Z.to_nat (h_pos h) + length b)%nat by (unfold zlen; lia). apply over_app.
Qed.
Lemma written : forall h l order c, 0 <= h_pos h -> Permutation (snd (writes h l)) order -> all_done c order = overwritten c (Z.to_nat (h_pos h)) (concat l) /\ h_pos (fst (writes h l)) = h_pos h + zlen (concat l).
Proof.
  intros h l order c H P. destruct (writes_spec l h H) as (rs & E & F1 & _ & F3 & F4). rewrite E in *. cbn [fst snd h_pos] in *. split; [|reflexivity]. rewrite <- (all_done_perm _ _ P F1 F3). apply F4.
Qed.
Lemma size_max : forall h, 0 <= h_pos h -> 0 <= h_stat h -> size h = Z.max (h_pos h) (h_stat h).
Proof. intros h A B. unfold size. destruct ((h_stat h <=? h_pos h) && (0 <? h_pos h)) eqn:E; lia. Qed.
Lemma size_written : forall h l order c, 0 <= h_pos h <= h_stat h -> h_stat h = zlen c -> Permutation (snd (writes h l)) order -> size (fst (writes h l)) = zlen (all_done c order).
Proof.
  intros h l order c A B P. destruct (written h l order c (proj1 A) P) as [W1 W2]. rewrite W1. destruct (writes_spec l h (proj1 A)) as (rs & E & _). rewrite E. cbn [fst].
  rewrite size_max by (cbn; unfold zlen; lia). cbn [h_pos h_stat]. destruct (concat l) as [|x r] eqn:C; [cbn; unfold zlen in *; cbn; lia|]. unfold zlen at 2. rewrite over_length by discriminate. unfold zlen in *. lia.
Qed.

(** ** A row of reads *)
Lemma read_spec : forall h n, 0 <= h_pos h <= h_stat h -> 0 < n < 2 ^ 32 -> read h n = (mkH (Z.min (h_pos h + n) (h_stat h)) (h_stat h), Get (h_pos h) n).
Proof.
  intros h n A B. unfold read. rewrite (size_max h) by lia. replace (Z.max (h_pos h) (h_stat h)) with (h_stat h) by lia. change (2 ^ 32) with 4294967296 in *. f_equal. f_equal.
  destruct (h_stat h <? h_pos h + n) eqn:E; [rewrite Z.mod_small by lia; lia|lia].
Qed.
Lemma firstn_plus : forall (l : list Z) a b, firstn (a + b) l = firstn a l ++ firstn b (skipn a l).
Proof. induction l as [|x l IH]; intros [|a] b; cbn; try reflexivity; [destruct b; reflexivity|]. rewrite IH. reflexivity. Qed.
Lemma skipn_skipn' : forall (l : list Z) a b, skipn a (skipn b l) = skipn (b + a) l.
Proof. induction l as [|x l IH]; intros a [|b]; cbn; try reflexivity; [destruct a; reflexivity|]. apply IH. Qed.
Lemma reads_inside : forall l h c, 0 <= h_pos h -> Forall (fun n => 0 < n < 2 ^ 32) l -> h_pos h + sum l <= h_stat h ->
  fst (reads h l) = mkH (h_pos h + sum l) (h_stat h) /\ concat (map (answer c) (snd (reads h l))) = firstn (Z.to_nat (sum l)) (skipn (Z.to_nat (h_pos h)) c).
Proof.
  induction l as [|n l IH]; intros h c A F S.
  - cbn. rewrite Z.add_0_r. destruct h. auto.
  - pose proof (Forall_inv F) as N. pose proof (Forall_inv_tail F) as F'. cbn [sum fold_right] in *. fold (sum l) in *. assert (SP : 0 <= sum l) by (clear -F'; induction F' as [|y l H F IH]; cbn; [lia|]; fold (sum l); lia).
    cbn [reads]. rewrite read_spec by lia. replace (Z.min (h_pos h + n) (h_stat h)) with (h_pos h + n) by lia. destruct (reads (mkH (h_pos h + n) (h_stat h)) l) as [h' rs] eqn:E.
    destruct (IH (mkH (h_pos h + n) (h_stat h)) c) as [I1 I2]; [cbn; lia|exact F'|cbn; lia|]. rewrite E in *. cbn [fst snd h_pos h_stat map concat answer] in *. rewrite I1, I2. split; [f_equal; lia|].
    replace (Z.to_nat (n + sum l)) with (Z.to_nat n + Z.to_nat (sum l))%nat by lia. rewrite firstn_plus. f_equal. rewrite skipn_skipn'. do 2 f_equal. lia.
Qed.
Lemma reads_at_end : forall l h, h_pos h = h_stat h -> 0 <= h_stat h -> Forall (fun n => 0 < n < 2 ^ 32) l -> reads h l = (h, map (Get (h_stat h)) l).
Proof.
  induction l as [|n l IH]; intros h A B F; [reflexivity|]. cbn [reads map]. pose proof (Forall_inv F) as N. cbv beta in N. rewrite read_spec by lia. replace (mkH (Z.min (h_pos h + n) (h_stat h)) (h_stat h)) with h by (destruct h; cbn in *; f_equal; pose proof (Forall_inv F); lia).
  rewrite IH by (try exact (Forall_inv_tail F); assumption). rewrite A. reflexivity.
Qed.
Lemma firstn_long : forall (l : list Z) a b, (length l <= a)%nat -> (length l <= b)%nat -> firstn a l = firstn b l.
Proof. intros l a b A B. rewrite !firstn_all2 by assumption. reflexivity. Qed.
Lemma reads_all : forall l h c, 0 <= h_pos h <= h_stat h -> h_stat h = zlen c -> Forall (fun n => 0 < n < 2 ^ 32) l ->
  fst (reads h l) = mkH (Z.min (h_pos h + sum l) (h_stat h)) (h_stat h) /\ concat (map (answer c) (snd (reads h l))) = firstn (Z.to_nat (sum l)) (skipn (Z.to_nat (h_pos h)) c).
Proof.
  induction l as [|n l IH]; intros h c A C F.
  - cbn. rewrite Z.add_0_r. replace (Z.min (h_pos h) (h_stat h)) with (h_pos h) by lia. destruct h. auto.
  - pose proof (Forall_inv F) as N. pose proof (Forall_inv_tail F) as F'. cbn [sum fold_right] in *. fold (sum l) in *. assert (SP : 0 <= sum l) by (clear -F'; induction F' as [|y l H F IH]; cbn; [lia|]; fold (sum l); lia).
    cbn [reads]. rewrite read_spec by lia. set (h1 := mkH (Z.min (h_pos h + n) (h_stat h)) (h_stat h)). destruct (reads h1 l) as [h' rs] eqn:E.
    destruct (IH h1 c) as [I1 I2]; [cbn; lia|exact C|exact F'|]. rewrite E in *. unfold h1 in *. cbn [fst snd h_pos h_stat map concat answer] in *. rewrite I1, I2. split; [f_equal; lia|].
    replace (Z.to_nat (n + sum l)) with (Z.to_nat n + Z.to_nat (sum l))%nat by lia. rewrite firstn_plus. f_equal. rewrite skipn_skipn'.
    destruct (Z_le_gt_dec (h_pos h + n) (h_stat h)) as [L|L]; [do 2 f_equal; lia|]. rewrite !skipn_all2 by (unfold zlen in C; lia). reflexivity.
Qed.
Lemma eof_spec : forall h, 0 <= h_pos h -> 0 <= h_stat h -> eof h = (h_stat h <=? h_pos h).
Proof. intros h A B. unfold eof. rewrite size_max by assumption. destruct (Z.max (h_pos h) (h_stat h) =? 0) eqn:E; lia. Qed.
Lemma created : forall l order, Permutation (snd (writes (mkH 0 0) l)) order -> all_done [] order = concat l /\ size (fst (writes (mkH 0 0) l)) = zlen (concat l).
Proof.
  intros l order P. destruct (written (mkH 0 0) l order [] (Z.le_refl 0) P) as [W _]. assert (E : all_done [] order = concat l).
  { rewrite W. unfold overwritten. destruct (concat l) as [|x r]; [reflexivity|]. cbn [h_pos Z.to_nat firstn app]. rewrite skipn_nil, app_nil_r. reflexivity. }
  split; [exact E|]. rewrite (size_written (mkH 0 0) l order []) by (try exact P; cbn; lia). rewrite E. reflexivity.
Qed.
Lemma disjoint_any_order : forall rs order, Permutation rs order -> (forall p x, In (Put p x) rs -> 0 <= p) -> each_pair disjoint rs -> forall c, all_done c rs = all_done c order.
Proof. intros rs order P H D c. apply all_done_perm; [exact P| |exact D]. apply Forall_forall. intros [p x|p n] I; [exact (H p x I)|exact Logic.I]. Qed.
Lemma over_part : forall c p b, firstn (length b) (skipn p (overwritten c p b)) = b.
Proof.
  intros c p b. destruct b as [|x b]; [reflexivity|]. unfold overwritten. set (w := x :: b). rewrite skipn_app. assert (L : length (firstn p (c ++ repeat 0 (p - length c))) = p) by (rewrite firstn_length, app_length, repeat_length; lia).
  rewrite L, Nat.sub_diag. rewrite skipn_all2 by lia. cbn [app skipn]. rewrite firstn_app, Nat.sub_diag, firstn_all. apply app_nil_r.
Qed.
Lemma written_twice : forall p s c x y, 0 <= p -> length x = length y -> x <> y ->
  let a := write (mkH p s) x in let b := write (set_position (fst a) p) y in
  Permutation [snd a; snd b] [snd b; snd a] /\ firstn (length y) (skipn (Z.to_nat p) (all_done c [snd a; snd b])) = y /\ firstn (length y) (skipn (Z.to_nat p) (all_done c [snd b; snd a])) = x.
Proof. intros p s c x y H L N. cbn. split; [apply perm_swap|]. unfold all_done. cbn [fold_left done]. split; [apply over_part|]. rewrite <- L. apply over_part. Qed.
Lemma short_write : forall x y k, (k < length x)%nat -> y <> [] -> (0 < k)%nat ->
  let a := write (mkH 0 0) x in let b := write (fst a) y in snd a = Put 0 x /\ all_done [] [Put 0 (firstn k x); snd b] = firstn k x ++ repeat 0 (length x - k) ++ y.
Proof.
  intros x y k H N K a b. split; [reflexivity|]. subst a b. unfold all_done, write. cbn [fst snd h_pos h_stat fold_left done]. rewrite Z.add_0_l. assert (E : overwritten [] (Z.to_nat 0) (firstn k x) = firstn k x).
  { unfold overwritten. destruct (firstn k x) as [|u r]; [reflexivity|]. cbn [Z.to_nat firstn app]. rewrite skipn_nil, app_nil_r. reflexivity. }
  rewrite E. unfold overwritten. destruct y as [|y0 y]; [congruence|]. rewrite firstn_length. replace (Z.to_nat (zlen x)) with (length x) by (unfold zlen; lia). replace (Nat.min k (length x)) with k by lia.
  rewrite (firstn_all2 (firstn k x ++ _)) by (rewrite app_length, firstn_length, repeat_length; lia). rewrite skipn_all2 by (rewrite firstn_length; lia). rewrite app_nil_r, <- app_assoc. reflexivity.
Qed.
Lemma size_back : forall l p, 0 <= p < zlen (concat l) -> let h := set_position (fst (writes (mkH 0 0) l)) p in size h = p /\ eof h = true /\ forall order, Permutation (snd (writes (mkH 0 0) l)) order -> p < zlen (all_done [] order).
Proof.
  intros l p H h. destruct (writes_spec l (mkH 0 0) (Z.le_refl 0)) as (rs & E & _). unfold h. rewrite E at 1 2. cbn [fst set_position h_stat]. split; [rewrite size_max by (cbn; lia); cbn; lia|]. split; [rewrite eof_spec by (cbn; lia); cbn; lia|].
  intros order P. destruct (created l order P) as [W _]. rewrite W. lia.
Qed.
Lemma read_whole : forall l h c, 0 <= h_pos h <= h_stat h -> h_stat h = zlen c -> Forall (fun n => 0 < n < 2 ^ 32) l ->
  concat (map (answer c) (snd (reads h l))) = firstn (Z.to_nat (sum l)) (skipn (Z.to_nat (h_pos h)) c)
  /\ h_pos (fst (reads h l)) = Z.min (h_pos h + sum l) (zlen c) /\ (eof (fst (reads h l)) = true <-> zlen c <= h_pos h + sum l).
Proof.
  intros l h c A C F. destruct (reads_all l h c A C F) as [E1 E2]. split; [exact E2|]. rewrite E1. cbn [h_pos]. split; [lia|]. assert (SP : 0 <= sum l) by (clear -F; induction F as [|y l H F IH]; cbn; [lia|]; fold (sum l); lia).
  rewrite eof_spec by (cbn; lia). cbn [h_pos h_stat]. lia.
Qed.
Lemma read_grown : forall h c m k, 0 <= h_pos h < h_stat h -> h_stat h < h_pos h + m -> 0 < m < 2 ^ 32 -> 0 < k < 2 ^ 32 -> h_stat h < zlen c ->
  let '(h1, a) := read h m in let '(h2, b) := read h1 k in let old := Z.to_nat (h_stat h - h_pos h) in
  eof h1 = true /\ h_pos h1 = h_stat h /\ answer c a = firstn old (skipn (Z.to_nat (h_pos h)) c) ++ firstn (Z.to_nat m - old) (skipn (Z.to_nat (h_stat h)) c)
  /\ answer c b = firstn (Z.to_nat k) (skipn (Z.to_nat (h_stat h)) c) /\ hd_error (answer c b) = nth_error (answer c a) old /\ hd_error (answer c b) <> None.
Proof.
  intros h c m k A B M K C. rewrite read_spec by lia. replace (Z.min (h_pos h + m) (h_stat h)) with (h_stat h) by lia. rewrite read_spec by (cbn; lia). cbn [h_pos h_stat answer]. rewrite eof_spec by (cbn; lia). cbn [h_pos h_stat].
  set (old := Z.to_nat (h_stat h - h_pos h)). assert (S1 : skipn (Z.to_nat (h_stat h)) c = skipn old (skipn (Z.to_nat (h_pos h)) c)) by (rewrite skipn_skipn'; f_equal; unfold old; lia).
  assert (EA : firstn (Z.to_nat m) (skipn (Z.to_nat (h_pos h)) c) = firstn old (skipn (Z.to_nat (h_pos h)) c) ++ firstn (Z.to_nat m - old) (skipn (Z.to_nat (h_stat h)) c)).
  { replace (Z.to_nat m) with (old + (Z.to_nat m - old))%nat at 1 by (unfold old; lia). rewrite firstn_plus, <- S1. reflexivity. }
  split; [lia|]. split; [reflexivity|]. split; [exact EA|]. split; [reflexivity|]. rewrite EA.
  destruct (skipn (Z.to_nat (h_stat h)) c) as [|z r] eqn:Q; [apply (f_equal (@length Z)) in Q; rewrite skipn_length in Q; cbn in Q; unfold zlen in C; lia|].
  destruct (Z.to_nat k) as [|k'] eqn:KK; [lia|]. cbn [firstn hd_error]. split; [|discriminate]. assert (LO : length (firstn old (skipn (Z.to_nat (h_pos h)) c)) = old) by (rewrite firstn_length, skipn_length; unfold old, zlen in *; lia).
  rewrite nth_error_app2 by lia. rewrite LO, Nat.sub_diag. destruct (Z.to_nat m - old)%nat eqn:D; [unfold old in D; lia|]. reflexivity.
Qed.
