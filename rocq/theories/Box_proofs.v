From Coq Require Import ZifyNat.
From Verif Require Import Util SampleTab_model SampleTab_proofs Box_model.
Local Open Scope Z_scope.
Local Ltac Zify.zify_post_hook ::= Z.div_mod_to_equations.
(** ** Numbers *)
Lemma be_length : forall n x, length (be n x) = n. Proof. induction n as [|n IH]; intros x; [reflexivity|]. cbn [be]. rewrite app_length, IH. cbn. lia. Qed.
Lemma be32_length : forall x, length (be32 x) = 4%nat. Proof. intros. apply be_length. Qed.
Lemma be32_zlen : forall x, zlen (be32 x) = 4. Proof. intros. unfold zlen. rewrite be32_length. reflexivity. Qed.
Lemma be_bytes : forall n x, bytes (be n x). Proof. induction n as [|n IH]; intros x; [constructor|]. cbn [be]. apply bytes_app. split; [apply IH|]. constructor; [unfold is_byte; lia|constructor]. Qed.
Lemma be_val_app : forall a b acc, be_val acc (a ++ b) = be_val (be_val acc a) b. Proof. induction a as [|x a IH]; intros b acc; [reflexivity|]. cbn [app be_val]. apply IH. Qed.
Lemma be_val_be : forall n x acc, 0 <= x < 256 ^ Z.of_nat n -> be_val acc (be n x) = acc * 256 ^ Z.of_nat n + x.
Proof.
  induction n as [|n IH]; intros x acc H; [cbn [be be_val]; change (256 ^ Z.of_nat 0) with 1 in *; lia|]. cbn [be]. rewrite be_val_app. rewrite Nat2Z.inj_succ, Z.pow_succ_r in * by lia. rewrite IH by lia. cbn [be_val]. nia.
Qed.
Lemma be32_val : forall x, 0 <= x < 2 ^ 32 -> be_val 0 (be32 x) = x. Proof. intros. unfold be32. rewrite be_val_be; [lia|exact H]. Qed.
Lemma be_app : forall m n x, be (m + n) x = be n (x / 256 ^ Z.of_nat m) ++ be m x.
Proof.
  induction m as [|m IH]; intros n x; [cbn [Nat.add be]; rewrite app_nil_r; change (256 ^ Z.of_nat 0) with 1; rewrite Z.div_1_r; reflexivity|]. cbn [Nat.add be]. rewrite IH, <- app_assoc. rewrite Z.div_div, Nat2Z.inj_succ, Z.pow_succ_r by lia. reflexivity.
Qed.
Lemma be_mod : forall m x, be m (x mod 256 ^ Z.of_nat m) = be m x.
Proof.
  induction m as [|m IH]; intros x; [reflexivity|]. cbn [be]. rewrite Nat2Z.inj_succ, Z.pow_succ_r by lia. set (q := 256 ^ Z.of_nat m). assert (0 < q) by (unfold q; lia). rewrite Z.rem_mul_r by lia. f_equal; [|f_equal; rewrite (Z.mul_comm 256), Z.mod_add by lia; apply Z.mod_mod; lia].
  rewrite (Z.mul_comm 256), Z.div_add, Z.div_small by lia. rewrite Z.add_0_l. apply IH.
Qed.
(** ** The writer *)
Definition fin (f : list Z) (ps : list (Z * Z)) : wr := mkW f (zlen f) ps.
Lemma at_end_fin : forall w, at_end w -> w = fin (w_file w) (w_parents w). Proof. intros [f p ps] H. unfold at_end in H. cbn in H. subst p. reflexivity. Qed.
Lemma put_fin : forall bs f ps, put bs (fin f ps) = fin (f ++ bs) ps.
Proof. intros. unfold put, fin. cbn [w_file w_pos w_parents]. rewrite zlen_app. unfold zlen. rewrite Nat2Z.id, firstn_all, skipn_all2 by lia. rewrite app_nil_r. reflexivity. Qed.
Lemma patch : forall a x y b ps, length x = length y -> put y (mkW (a ++ x ++ b) (zlen a) ps) = mkW (a ++ y ++ b) (zlen a + zlen y) ps.
Proof.
  intros a x y b ps L. unfold put. cbn [w_file w_pos w_parents]. unfold zlen. rewrite Nat2Z.id. f_equal. rewrite <- (Nat.add_0_r (length a)) at 1. rewrite firstn_app_2, firstn_O, app_nil_r. f_equal. f_equal.
  rewrite <- L. rewrite skipn_app. rewrite skipn_all2 by lia. cbn [app]. replace (length a + length x - length a)%nat with (length x) by lia. rewrite skipn_app, skipn_all, Nat.sub_diag. reflexivity.
Qed.
Lemma child_fin : forall t body f ps, child_box t body (fin f ps) = fin (f ++ be32 (u32 (8 + zlen body)) ++ be32 t ++ body) ps.
Proof.
  intros. unfold child_box. rewrite !put_fin, <- !app_assoc. unfold fin at 3. unfold seek, fin. cbn [w_file w_parents w_pos].
  rewrite patch by (rewrite !be32_length; reflexivity). cbn [w_file w_parents w_pos]. replace (zlen (f ++ be32 4294967295 ++ be32 t ++ body) - zlen f) with (8 + zlen body) by (rewrite !zlen_app, !be32_zlen; lia). f_equal. rewrite !zlen_app, !be32_zlen. reflexivity.
Qed.
Lemma open_fin : forall t f ps, open_box t (fin f ps) = fin (f ++ be32 4294967295 ++ be32 t) ((t, zlen f) :: ps).
Proof. intros. unfold open_box. rewrite !put_fin, <- app_assoc. reflexivity. Qed.
Lemma close_fin : forall t f x inside ps, length x = 4%nat -> close_box (fin (f ++ x ++ inside) ((t, zlen f) :: ps)) = Some (fin (f ++ be32 (u32 (4 + zlen inside)) ++ inside) ps).
Proof.
  intros t f x inside ps L. unfold close_box, fin. cbn [w_parents w_pos]. unfold seek. cbn [w_file w_parents w_pos]. replace (zlen (f ++ x ++ inside) - zlen f) with (4 + zlen inside) by (rewrite !zlen_app; unfold zlen; lia).
  rewrite patch by (rewrite be32_length; exact L). cbn [w_file w_parents w_pos]. f_equal. f_equal. rewrite !zlen_app, be32_zlen. unfold zlen. lia.
Qed.
Definition item_ind2 (P : item -> Prop) (HR : forall bs, P (Raw bs)) (HL : forall t b, P (Leaf t b)) (HN : forall t kids, Forall P kids -> P (Node t kids)) : forall i, P i :=
  fix F i := match i with Raw bs => HR bs | Leaf t b => HL t b | Node t kids => HN t kids ((fix G (l : list item) : Forall P l := match l with [] => Forall_nil P | k :: l => Forall_cons k (F k) (G l) end) kids) end.
Lemma fits_node : forall t kids, fits (Node t kids) <-> 8 + zlen (concat (map layout kids)) < 2 ^ 32 /\ Forall fits kids.
Proof.
  intros t kids. cbn [fits]. set (all := fix all (l : list item) : Prop := match l with [] => True | k :: l => fits k /\ all l end). assert (H : all kids <-> Forall fits kids).
  { induction kids as [|k kids IH]; [split; [constructor|intros; exact I]|]. cbn. rewrite IH. split; [intros [A B]; constructor; assumption|intros H; split; [exact (Forall_inv H)|exact (Forall_inv_tail H)]]. }
  rewrite H. reflexivity.
Qed.
Lemma write_node : forall t kids w, write (Node t kids) w = match write_all kids (open_box t w) with Some w => close_box w | None => None end.
Proof.
  intros t kids w. cbn [write]. set (all := fix all (l : list item) (w : wr) : option wr := match l with [] => Some w | k :: l => match write k w with Some w => all l w | None => None end end).
  assert (H : forall l w, all l w = write_all l w). { induction l as [|k l IH]; intros w0; [reflexivity|]. cbn. destruct (write k w0); [apply IH|reflexivity]. } rewrite H. reflexivity.
Qed.
Lemma write_ok : forall i f ps, fits i -> write i (fin f ps) = Some (fin (f ++ layout i) ps).
Proof.
  induction i as [bs|t body|t kids IH] using item_ind2; intros f ps F.
  - cbn [write layout]. rewrite put_fin. reflexivity.
  - cbn [write layout]. rewrite child_fin. cbn [fits] in F. rewrite u32_id; [reflexivity|]. pose proof (zlen_nonneg body). lia.
  - rewrite write_node, open_fin. apply fits_node in F. destruct F as [F1 F2].
    assert (A : forall l f ps, Forall (fun i => forall f ps, fits i -> write i (fin f ps) = Some (fin (f ++ layout i) ps)) l -> Forall fits l -> write_all l (fin f ps) = Some (fin (f ++ concat (map layout l)) ps)).
    { induction l as [|k l IHl]; intros g qs H1 H2; [cbn; rewrite app_nil_r; reflexivity|]. cbn [write_all map concat]. rewrite (Forall_inv H1) by exact (Forall_inv H2). rewrite IHl by (first [exact (Forall_inv_tail H1)|exact (Forall_inv_tail H2)]). rewrite <- app_assoc. reflexivity. }
    rewrite A by assumption. rewrite <- !app_assoc. rewrite close_fin by apply be32_length. cbn [layout]. rewrite zlen_app, be32_zlen. replace (4 + (4 + zlen (concat (map layout kids)))) with (8 + zlen (concat (map layout kids))) by lia. rewrite u32_id; [reflexivity|]. pose proof (zlen_nonneg (concat (map layout kids))). lia.
Qed.
Lemma write_all_ok : forall l f ps, Forall fits l -> write_all l (fin f ps) = Some (fin (f ++ concat (map layout l)) ps).
Proof.
  induction l as [|k l IHl]; intros f ps H; [cbn; rewrite app_nil_r; reflexivity|]. cbn [write_all map concat]. rewrite write_ok by exact (Forall_inv H). rewrite IHl by exact (Forall_inv_tail H). rewrite <- app_assoc. reflexivity.
Qed.
Lemma written : forall l w, at_end w -> Forall fits l -> exists w', write_all l w = Some w' /\ w_file w' = w_file w ++ concat (map layout l) /\ at_end w' /\ w_parents w' = w_parents w.
Proof. intros l w H F. rewrite (at_end_fin _ H). eexists. split; [apply write_all_ok; exact F|]. cbn [fin w_file w_parents]. split; [reflexivity|]. split; reflexivity. Qed.
(** ** Boxes read back *)
Definition box_of (i : item) : option (Z * list Z) := match i with Raw _ => None | Leaf t b => Some (t, b) | Node t kids => Some (t, concat (map layout kids)) end.
Lemma layout_box : forall i t b, box_of i = Some (t, b) -> layout i = be32 (8 + zlen b) ++ be32 t ++ b.
Proof. intros [bs|t0 b0|t0 kids] t b H; cbn in H; inversion H; subst; reflexivity. Qed.
Lemma fits_box : forall i t b, box_of i = Some (t, b) -> fits i -> 8 + zlen b < 2 ^ 32.
Proof. intros i t b H F. destruct i as [bs|t1 b1|t1 kids]; cbn in H; [discriminate|injection H as <- <-; exact F|injection H as <- <-]. apply (fits_node t1 kids) in F. apply F. Qed.
Lemma boxes_back : forall l bl, Forall2 (fun i b => box_of i = Some b /\ fits i /\ 0 <= fst b < 2 ^ 32) l bl -> boxes (concat (map layout l)) bl.
Proof.
  intros l bl H. induction H as [|i [t b] l bl [H1 [H2 H3]] H IH]; [constructor|]. cbn [map concat]. rewrite (layout_box _ _ _ H1). rewrite <- !app_assoc. cbn [fst] in H3. rewrite <- (be32_val t H3) at 2. apply boxes_cons; [apply be32_length|apply be32_length| |exact IH]. apply be32_val. pose proof (fits_box _ _ _ H1 H2). pose proof (zlen_nonneg b). lia.
Qed.
Lemma app_split4 : forall (a a' b b' : list Z), a ++ b = a' ++ b' -> length a = length a' -> a = a' /\ b = b'.
Proof. induction a as [|x a IH]; intros [|x' a'] b b' E L; try discriminate; [split; [reflexivity|exact E]|]. cbn in E. injection E as -> E. destruct (IH a' b b' E) as [-> ->]; [cbn in L; lia|]. split; reflexivity. Qed.
Lemma boxes_unique : forall f l, boxes f l -> forall l', boxes f l' -> l = l'.
Proof.
  intros f l H. induction H as [|size type body rest l L1 L2 V H IH]; intros l' H'.
  - inversion H' as [E|size type body rest l2 L1 L2 V H2 E]; [reflexivity|]. destruct size; [discriminate|discriminate].
  - inversion H' as [E|size' type' body' rest' l2 L1' L2' V' H2 E]; [destruct size; [discriminate|discriminate]|]. apply app_split4 in E; [|lia]. destruct E as [-> E]. apply app_split4 in E; [|lia]. destruct E as [-> E]. apply app_split4 in E; [|unfold zlen in *; lia]. destruct E as [-> ->]. f_equal. apply IH. exact H2.
Qed.
(** ** The reader *)
Lemma bytes_at_app : forall a x b, bytes_at (a ++ x ++ b) (zlen a) (length x) = Some x.
Proof.
  intros. unfold bytes_at, zlen. rewrite Nat2Z.id, skipn_app, skipn_all, Nat.sub_diag. cbn [skipn app]. rewrite <- (Nat.add_0_r (length x)). rewrite firstn_app_2, firstn_O, app_nil_r, Nat.add_0_r, Nat.eqb_refl. rewrite andb_true_r. destruct (Z.leb_spec 0 (Z.of_nat (length a))); [reflexivity|lia].
Qed.
Lemma num_at_app : forall a n v b p, p = zlen a -> 0 <= v < 256 ^ Z.of_nat n -> num_at (a ++ be n v ++ b) p n = Some v.
Proof. intros a n v b p -> H. unfold num_at. rewrite <- (be_length n v) at 2. rewrite bytes_at_app. rewrite be_val_be by exact H. reflexivity. Qed.
Lemma do_box_plain : forall pre t body post, 0 <= t < 2 ^ 32 -> t <> uuid -> 8 + zlen body < 2 ^ 32 -> do_box (pre ++ (be32 (8 + zlen body) ++ be32 t ++ body) ++ post) (zlen pre) = Some (mkR (zlen pre + 8) (zlen pre) (8 + zlen body) t).
Proof.
  intros pre t body post Ht Nu Hs. pose proof (zlen_nonneg body). unfold do_box, parse_box. rewrite <- !app_assoc. unfold be32 at 1. rewrite num_at_app; [|reflexivity|change (256 ^ Z.of_nat 4) with (2 ^ 32); lia].
  replace (pre ++ be32 (8 + zlen body) ++ be32 t ++ body ++ post) with ((pre ++ be32 (8 + zlen body)) ++ be 4 t ++ body ++ post) by (rewrite <- app_assoc; reflexivity). rewrite num_at_app; [|rewrite zlen_app, be32_zlen; reflexivity|exact Ht].
  destruct (Z.eqb_spec (8 + zlen body) 1); [lia|]. destruct (Z.eqb_spec t uuid); [contradiction|]. reflexivity.
Qed.
Lemma do_box_uuid : forall pre g body post, length g = 16%nat -> 24 + zlen body < 2 ^ 32 -> do_box (pre ++ (be32 (24 + zlen body) ++ be32 uuid ++ g ++ body) ++ post) (zlen pre) = Some (mkR (zlen pre + 24) (zlen pre) (8 + zlen body) uuid).
Proof.
  intros pre g body post Lg Hs. pose proof (zlen_nonneg body). unfold do_box, parse_box. rewrite <- !app_assoc. unfold be32 at 1. rewrite num_at_app; [|reflexivity|change (256 ^ Z.of_nat 4) with (2 ^ 32); lia].
  replace (pre ++ be32 (24 + zlen body) ++ be32 uuid ++ g ++ body ++ post) with ((pre ++ be32 (24 + zlen body)) ++ be 4 uuid ++ g ++ body ++ post) at 1 by (rewrite <- app_assoc; reflexivity). rewrite num_at_app; [|rewrite zlen_app, be32_zlen; reflexivity|unfold uuid; change (256 ^ Z.of_nat 4) with (2 ^ 32); lia].
  destruct (Z.eqb_spec (24 + zlen body) 1); [lia|]. rewrite Z.eqb_refl.
  replace (pre ++ be32 (24 + zlen body) ++ be32 uuid ++ g ++ body ++ post) with ((pre ++ be32 (24 + zlen body) ++ be32 uuid) ++ g ++ body ++ post) by (rewrite <- !app_assoc; reflexivity).
  replace (zlen pre + 8) with (zlen (pre ++ be32 (24 + zlen body) ++ be32 uuid)) by (rewrite !zlen_app, !be32_zlen; lia). rewrite <- Lg. rewrite bytes_at_app. rewrite u64_id by lia. f_equal. rewrite !zlen_app, !be32_zlen. f_equal; lia.
Qed.
Lemma do_box_large : forall pre t body post, 0 <= t < 2 ^ 32 -> t <> uuid -> 16 + zlen body < 2 ^ 61 -> do_box (pre ++ (be32 1 ++ be32 t ++ be 8 (16 + zlen body) ++ body) ++ post) (zlen pre) = Some (mkR (zlen pre + 16) (zlen pre) (16 + zlen body) t).
Proof.
  intros pre t body post Ht Nu Hs. pose proof (zlen_nonneg body). set (s := 16 + zlen body) in *. unfold do_box, parse_box.
  assert (E8 : be 8 s = be32 (s / 2 ^ 32) ++ be32 (s mod 2 ^ 32)).
  { unfold be32. change (be 8 s) with (be (4 + 4) s). rewrite (be_app 4 4 s). change (256 ^ Z.of_nat 4) with (2 ^ 32). f_equal. symmetry. apply (be_mod 4 s). }
  rewrite E8. set (hi := s / 2 ^ 32) in *. set (lo := s mod 2 ^ 32) in *. rewrite <- !app_assoc. unfold be32 at 1. rewrite num_at_app; [|reflexivity|change (256 ^ Z.of_nat 4) with (2 ^ 32); lia].
  replace (pre ++ be32 1 ++ be32 t ++ be32 hi ++ be32 lo ++ body ++ post) with ((pre ++ be32 1) ++ be 4 t ++ be32 hi ++ be32 lo ++ body ++ post) at 1 by (rewrite <- app_assoc; reflexivity). rewrite num_at_app; [|rewrite zlen_app, be32_zlen; reflexivity|exact Ht].
  change (1 =? 1) with true. cbn iota.
  replace (pre ++ be32 1 ++ be32 t ++ be32 hi ++ be32 lo ++ body ++ post) with ((pre ++ be32 1 ++ be32 t) ++ be 4 hi ++ be32 lo ++ body ++ post) at 1 by (rewrite <- !app_assoc; reflexivity). rewrite num_at_app; [|rewrite !zlen_app, !be32_zlen; lia|unfold hi; change (256 ^ Z.of_nat 4) with (2 ^ 32); lia].
  replace (pre ++ be32 1 ++ be32 t ++ be32 hi ++ be32 lo ++ body ++ post) with ((pre ++ be32 1 ++ be32 t ++ be32 hi) ++ be 4 lo ++ body ++ post) by (rewrite <- !app_assoc; reflexivity). rewrite num_at_app; [|rewrite !zlen_app, !be32_zlen; lia|unfold lo; change (256 ^ Z.of_nat 4) with (2 ^ 32); lia].
  destruct (Z.eqb_spec t uuid); [contradiction|]. f_equal. f_equal. unfold hi, lo. lia.
Qed.
Lemma skip_loop_ok : forall fuel todo, 0 <= todo -> (Z.to_nat (todo / 31) < fuel)%nat -> skip_loop fuel todo = todo.
Proof.
  induction fuel as [|fuel IH]; intros todo H F; [lia|]. cbn [skip_loop]. destruct (Z.ltb_spec 31 todo); [rewrite IH by lia; lia|]. destruct (Z.ltb_spec 0 todo); lia.
Qed.
Lemma skipbytes_ok : forall n, 0 <= n < 2 ^ 61 -> skipbytes n = 8 * n.
Proof. intros n H. unfold skipbytes. rewrite u64_id by lia. rewrite skip_loop_ok; lia. Qed.
Lemma skip_current_ok : forall b, 8 <= r_size b < 2 ^ 61 -> skip_current b = r_pos b + (r_size b - 8).
Proof. intros b H. unfold skip_current. rewrite skipbytes_ok by lia. lia. Qed.
Lemma read_plain : forall pre t body post, 0 <= t < 2 ^ 32 -> t <> uuid -> 8 + zlen body < 2 ^ 32 -> let f := pre ++ layout (Leaf t body) ++ post in
  exists b, do_box f (zlen pre) = Some b /\ r_type b = t /\ r_pos b = zlen pre + 8 /\ skip_current b = zlen pre + zlen (layout (Leaf t body)) /\ box_end b = zlen pre + zlen (layout (Leaf t body)).
Proof.
  intros pre t body post Ht Nu Hs f. pose proof (zlen_nonneg body). eexists. split; [apply do_box_plain; assumption|]. cbn [r_type r_pos]. split; [reflexivity|]. split; [reflexivity|]. rewrite skip_current_ok by (cbn [r_size]; lia). unfold box_end. cbn [r_pos r_size r_box layout]. rewrite !zlen_app, !be32_zlen. lia.
Qed.
Lemma read_uuid : forall pre g body post, length g = 16%nat -> 24 + zlen body < 2 ^ 32 -> let f := pre ++ layout (Leaf uuid (g ++ body)) ++ post in
  exists b, do_box f (zlen pre) = Some b /\ r_type b = uuid /\ r_pos b = zlen pre + 24 /\ skip_current b = zlen pre + zlen (layout (Leaf uuid (g ++ body))) /\ box_end b = zlen pre + zlen (layout (Leaf uuid (g ++ body))) - 16.
Proof.
  intros pre g body post Lg Hs f. pose proof (zlen_nonneg body). assert (Zg : zlen g = 16) by (unfold zlen; rewrite Lg; reflexivity). eexists. split; [unfold f; cbn [layout]; replace (8 + zlen (g ++ body)) with (24 + zlen body) by (rewrite zlen_app; lia); apply do_box_uuid; assumption|]. cbn [r_type r_pos]. split; [reflexivity|]. split; [reflexivity|]. rewrite skip_current_ok by (cbn [r_size]; lia). unfold box_end. cbn [r_pos r_size r_box layout]. rewrite !zlen_app, !be32_zlen. lia.
Qed.
Lemma read_large : forall pre t body post, 0 <= t < 2 ^ 32 -> t <> uuid -> 16 + zlen body < 2 ^ 61 -> let box := be32 1 ++ be32 t ++ be 8 (16 + zlen body) ++ body in
  exists b, do_box (pre ++ box ++ post) (zlen pre) = Some b /\ r_type b = t /\ r_pos b = zlen pre + 16 /\ box_end b = zlen pre + zlen box /\ skip_current b = zlen pre + zlen box + 8.
Proof.
  intros pre t body post Ht Nu Hs box. pose proof (zlen_nonneg body). eexists. split; [apply do_box_large; assumption|]. cbn [r_type r_pos]. split; [reflexivity|]. split; [reflexivity|]. rewrite skip_current_ok by (cbn [r_size]; lia). unfold box_end, box. cbn [r_pos r_size r_box]. rewrite !zlen_app, !be32_zlen. replace (zlen (be 8 (16 + zlen body))) with 8 by (unfold zlen; rewrite be_length; reflexivity). lia.
Qed.
