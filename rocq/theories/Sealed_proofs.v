(** Proofs about Sealed_model. *)
From Coq Require Import ZifyNat.
From Verif Require Import Util SampleTab_model SampleTab_proofs Box_model Box_proofs HlsCrypt_model HlsCrypt_proofs Cenc_model Cenc_proofs Frag_model Frag_proofs Frag_proofs2 Frag_proofs4 Defrag_model Defrag_proofs Foreign_model Foreign_proofs Sealed_model.
Local Open Scope Z_scope.
Local Ltac Zify.zify_post_hook ::= Z.div_mod_to_equations.
Opaque be.

(** ** sub samples *)
Lemma xor_app : forall a k b l, length a = length k -> xor_bytes (a ++ b) (k ++ l) = xor_bytes a k ++ xor_bytes b l.
Proof. induction a as [|x a IH]; intros [|y k] b l L; try discriminate; [reflexivity|]. cbn [app xor_bytes]. rewrite IH by (cbn in L; lia). reflexivity. Qed.
Lemma xor_short : forall a k l, (length a <= length k)%nat -> xor_bytes a (k ++ l) = xor_bytes a k.
Proof. induction a as [|x a IH]; intros [|y k] l L; try (cbn in L; lia); try reflexivity. cbn [app xor_bytes]. rewrite IH by (cbn in L; lia). reflexivity. Qed.
Lemma zseq_split : forall a b i, zseq i (a + b) = zseq i a ++ zseq (i + Z.of_nat a) b.
Proof. induction a as [|a IH]; intros b i; [cbn; rewrite Z.add_0_r; reflexivity|]. cbn [Nat.add zseq app]. rewrite IH. do 3 f_equal. lia. Qed.
Lemma ks_split : forall E v i a b, ks E v i (a + b) = ks E v i a ++ ks E v (i + Z.of_nat a) b.
Proof. intros. unfold ks. rewrite zseq_split, map_app, concat_app. reflexivity. Qed.
Lemma app_cut : forall {A} (a b c d : list A), length a = length c -> a ++ b = c ++ d -> a = c /\ b = d.
Proof. induction a as [|x a IH]; intros b [|y c] d L H; try discriminate; [split; [reflexivity|exact H]|]. cbn in *. injection H as -> H. destruct (IH b c d) as [-> ->]; [lia|exact H|]. split; reflexivity. Qed.
Definition sizes (l : list (list Z * list Z)) : list (Z * Z) := map (fun p => (zlen (fst p), zlen (snd p))) l.
Definition hide (parts : list (list Z * list Z)) (hidden : list (list Z)) : list Z := concat (map (fun '(p, h) => fst p ++ h) (combine parts hidden)).
Lemma first_part : forall E v i N p P h H, cipher E -> (zlen p mod 16 = 0 \/ P = []) -> zlen (p ++ P) <= 16 * Z.of_nat N -> length h = length p -> h ++ H = xor_bytes (p ++ P) (ks E v i N) ->
  let n := nblocks (zlen p) in (n <= N)%nat /\ h = xor_bytes p (ks E v i n) /\ H = xor_bytes P (ks E v (i + Z.of_nat n) (N - n)) /\ zlen P <= 16 * Z.of_nat (N - n).
Proof.
  intros E v i N p P h H C A L Lh X n. rewrite zlen_app' in L. pose proof (zlen_nonneg p). pose proof (zlen_nonneg P). destruct (nblocks_enough (zlen p) ltac:(lia)) as (N1 & N2). fold n in N1, N2. assert (Hn : (n <= N)%nat) by lia.
  split; [exact Hn|]. replace N with (n + (N - n))%nat in X by lia. rewrite ks_split in X. pose proof (ks_length E v n i C) as Lk. set (K1 := ks E v i n) in *. set (K2 := ks E v (i + Z.of_nat n) (N - n)) in *.
  assert (X2 : xor_bytes (p ++ P) (K1 ++ K2) = xor_bytes p K1 ++ xor_bytes P K2).
  { destruct A as [A| ->]; [apply xor_app; unfold zlen in *; lia|]. change (xor_bytes [] K2) with (@nil Z). rewrite !app_nil_r. apply xor_short. unfold zlen in *. lia. }
  rewrite X2 in X. destruct (app_cut h H (xor_bytes p K1) (xor_bytes P K2)) as [-> ->]; [rewrite xor_len; unfold zlen in *; lia|exact X|]. split; [reflexivity|]. split; [reflexivity|]. destruct A as [A|A]; [lia|]. subst P. change (zlen (@nil Z)) with 0. lia.
Qed.
Lemma unlock : forall E v parts hidden i N, cipher E -> whole_blocks parts -> map (@length Z) hidden = map (fun p => length (snd p)) parts -> zlen (concat (map snd parts)) <= 16 * Z.of_nat N -> 0 <= i -> i + Z.of_nat N <= 2 ^ 64 - 1 ->
  concat hidden = xor_bytes (concat (map snd parts)) (ks E v i N) -> decrypt_sub E (counter_block v i) (sizes parts) (hide parts hidden) = concat (map (fun p => fst p ++ snd p) parts).
Proof.
  intros E v. induction parts as [|[c p] parts IH]; intros [|h hidden] i N C W Ll L Hi HN X; try discriminate; [reflexivity|]. cbn [map concat fst snd whole_blocks] in *. destruct W as (A & W). injection Ll as Lh Ll.
  destruct (first_part E v i N p (concat (map snd parts)) h (concat hidden) C A L Lh X) as (Hn & Eh & X' & L'). set (n := nblocks (zlen p)) in *. change (hide ((c, p) :: parts) (h :: hidden)) with ((c ++ h) ++ hide parts hidden). change (sizes ((c, p) :: parts)) with ((zlen c, zlen p) :: sizes parts). cbn [decrypt_sub].
  replace (Z.to_nat (zlen c)) with (length c) by (unfold zlen; lia). rewrite <- !app_assoc. destruct (firstn_app_n (length c) c (h ++ hide parts hidden) eq_refl) as [F1 F2]. rewrite F1, F2. replace (Z.to_nat (zlen p)) with (length h) by (unfold zlen; lia). destruct (firstn_app_n (length h) h (hide parts hidden) eq_refl) as [G1 G2]. rewrite G1, G2.
  specialize (IH hidden (i + Z.of_nat n) (N - n)%nat C W Ll L' ltac:(lia) ltac:(lia) X').
  destruct (zlen p =? 0) eqn:E0.
  - assert (Ep : p = []) by (destruct p; [reflexivity|apply Z.eqb_eq in E0; unfold zlen in E0; cbn [length] in E0; lia]). subst p. assert (Eh0 : h = []) by (destruct h; [reflexivity|discriminate]). subst h. change n with 0%nat in IH. rewrite Z.add_0_r in IH. change (xor_bytes [] (ks E v i n)) with (@nil Z). cbn [app]. rewrite IH. reflexivity.
  - fold n. rewrite ctr_spec; [|exact C|exact Hi|lia]. cbv beta iota. rewrite IH. rewrite Eh, xor_twice'; [reflexivity|]. rewrite ks_length by exact C. destruct (nblocks_enough (zlen p) (zlen_nonneg p)). unfold zlen in *. fold n. lia.
Qed.
Definition listed_sizes (listed : bool) (k : lock) : list (Z * Z) := if listed then sizes (l_parts k) else [].
Lemma unlock_sample : forall E listed k body, cipher E -> lock_ok listed k -> sealed E k body -> decrypt E (be 8 (l_vector k)) (listed_sizes listed k) body = plain_of k.
Proof.
  intros E listed k body C (V & W & L & K) (hidden & H1 & H2 & H3). set (st := concat (map snd (l_parts k))) in *. assert (Es : be 8 (l_vector k) ++ repeat 0 8 = counter_block (l_vector k) 0) by reflexivity.
  change (key_stream E (l_vector k) (length st)) with (ks E (l_vector k) 0 (length st)) in H2. pose proof (zlen_nonneg st). unfold listed_sizes. destruct listed.
  - destruct K as (K & _). unfold decrypt. rewrite Es. pose proof (unlock E (l_vector k) (l_parts k) hidden 0 (length st) C W H1) as U. fold st in U. specialize (U ltac:(unfold zlen; lia) ltac:(lia) ltac:(unfold zlen in L; lia) H2). unfold hide in U. rewrite <- H3 in U. unfold plain_of. rewrite <- U. destruct (l_parts k) as [|p l]; [contradiction|]. reflexivity.
  - destruct K as (p & K). unfold plain_of. subst st. rewrite K in *. cbn [map concat fst snd app] in *. rewrite app_nil_r in *. destruct hidden as [|h [|]]; try discriminate. injection H1 as H1. cbn [combine map concat fst app] in *. rewrite app_nil_r in *. subst body. unfold decrypt. rewrite Es.
    pose proof (unlock E (l_vector k) [([], p)] [h] 0 (length p) C ltac:(split; [right; reflexivity|exact Logic.I]) ltac:(cbn; congruence)) as U. cbn [map concat fst snd app] in U. rewrite !app_nil_r in U. specialize (U ltac:(unfold zlen; lia) ltac:(lia) ltac:(unfold zlen in L; lia) H2).
    assert (Lz : zlen h = zlen p) by (unfold zlen; lia). unfold sizes, hide in U. cbn [map combine concat fst snd app] in U. rewrite app_nil_r in U. cbn [decrypt_sub] in U. change (zlen (@nil Z)) with 0 in U. change (Z.to_nat 0) with 0%nat in U. cbn [firstn skipn app] in U. rewrite Lz. rewrite <- Lz in U. replace (Z.to_nat (zlen h)) with (length h) in U by (unfold zlen; lia). rewrite firstn_all in U.
    destruct (zlen h =? 0) eqn:E0; [apply Z.eqb_eq in E0; assert (h = []) by (destruct h; [reflexivity|unfold zlen in E0; cbn [length] in E0; lia]); subst h; rewrite <- U; reflexivity|]. rewrite Lz in U. destruct (ctr E (nblocks (zlen p)) (counter_block (l_vector k) 0) h) as [r cb]. cbn [fst]. rewrite app_nil_r in U. exact U.
Qed.
(** ** boxes beside the run *)
Lemma reads_any_n : forall k n rest, length rest = (k * n)%nat -> exists v, Reads (rrep n (rnum k)) rest v.
Proof.
  intros k. induction n as [|n IH]; intros rest L; [rewrite Nat.mul_0_r in L; destruct rest; [|discriminate]; eexists; apply reads_ret|]. rewrite <- (firstn_skipn k rest). destruct (IH (skipn k rest)) as (v & R); [rewrite skipn_length; lia|]. eexists. cbn [rrep]. eapply reads_bind; [apply reads_any; rewrite firstn_length; lia|]. rewrite <- (app_nil_r (skipn k rest)). eapply reads_bind; [exact R|]. apply reads_ret.
Qed.
Lemma reads_kind : forall kind, exists v, Reads (rif (there kind) (rnum 8) 0) (opt 8 kind) v.
Proof. intros [v|]; eexists; [apply reads_any; apply be_length|apply reads_ret]. Qed.
Lemma kind_bits : forall b, Z.testbit (bit b 0) 0 = b /\ 0 <= bit b 0 < 256 ^ Z.of_nat 3. Proof. intros []; (split; [reflexivity|]); vm_compute; split; congruence. Qed.
Lemma reads_saiz : forall c, saiz_like c -> exists v, Reads get_saiz c v.
Proof.
  intros c (kind & size & n & rest & -> & Hs & Hn & L). destruct (reads_kind kind) as (kv & RK). destruct (kind_bits (there kind)) as (B & Bb).
  assert (X : exists v, Reads (if size =? 0 then rrep (Z.to_nat n) (rnum 1) else rret []) rest v) by (destruct (size =? 0); [apply reads_any_n; unfold zlen in L; lia|exists []; assert (rest = []) by (destruct rest; [reflexivity|unfold zlen in L; cbn [length] in L; lia]); subst rest; apply reads_ret]).
  destruct X as (v & X). exists n. unfold get_saiz. eapply reads_bind; [apply (reads_num 1 0); cbn; lia|]. eapply reads_bind; [apply reads_num; exact Bb|]. rewrite B. eapply reads_bind; [exact RK|]. eapply reads_bind; [apply (reads_num 1); exact Hs|]. eapply reads_bind; [apply (reads_num 4); exact Hn|]. rewrite <- (app_nil_r rest). eapply reads_bind; [exact X|]. apply reads_ret.
Qed.
Lemma reads_saio : forall c, saio_like c -> exists v, Reads get_saio c v.
Proof.
  intros c (version & kind & n & rest & -> & Hv & Hn & L). destruct (reads_kind kind) as (kv & RK). destruct (kind_bits (there kind)) as (B & Bb).
  assert (X : forall m r, zlen r = (if version =? 0 then 4 else 8) * Z.of_nat m -> exists v, Reads (rrep m (rbind (rnum 4) (fun o => rbind (rif (negb (version =? 0)) (rnum 4) 0) (fun _ => rret o)))) r v).
  { induction m as [|m IH]; intros r Lr; [exists []; assert (r = []) by (destruct r; [reflexivity|unfold zlen in Lr; cbn [length] in Lr; lia]); subst r; apply reads_ret|].
    set (w := if version =? 0 then 4%nat else 8%nat). assert (Hw : (w <= length r)%nat) by (unfold w, zlen in *; destruct (version =? 0); lia). destruct (IH (skipn w r)) as (v & R); [unfold w, zlen in *; rewrite skipn_length; destruct (version =? 0); lia|].
    assert (Q : exists o, Reads (rbind (rnum 4) (fun o => rbind (rif (negb (version =? 0)) (rnum 4) 0) (fun _ => rret o))) (firstn w r) o).
    { unfold w in *. destruct (version =? 0); cbn [negb rif]; eexists; rewrite <- (firstn_skipn 4 (firstn _ r)).
      - eapply reads_bind; [apply reads_any; rewrite !firstn_length; lia|]. rewrite <- (app_nil_r (skipn 4 (firstn _ r))). eapply reads_bind; [|apply reads_ret].
        assert (E : skipn 4 (firstn 4 r) = []) by (apply skipn_all2; rewrite firstn_length; lia). rewrite E. apply reads_ret.
      - eapply reads_bind; [apply reads_any; rewrite !firstn_length; lia|]. rewrite <- (app_nil_r (skipn 4 (firstn _ r))). eapply reads_bind; [|apply reads_ret].
        apply reads_any. rewrite skipn_length, firstn_length. lia. }
    destruct Q as (o & Q). eexists. cbn [rrep]. rewrite <- (firstn_skipn w r). eapply reads_bind; [exact Q|]. rewrite <- (app_nil_r (skipn w r)). eapply reads_bind; [exact R|]. apply reads_ret. }
  destruct (X (Z.to_nat n) rest) as (v & R); [rewrite Z2Nat.id by lia; exact L|]. exists v. unfold get_saio. eapply reads_bind; [apply (reads_num 1 version); cbn; lia|]. eapply reads_bind; [apply reads_num; exact Bb|]. rewrite B. eapply reads_bind; [exact RK|]. eapply reads_bind; [apply (reads_num 4); exact Hn|]. exact R.
Qed.
Definition vectors_of (listed : bool) (locks : list lock) : list (list Z * list (Z * Z)) := map (fun k => (be 8 (l_vector k), listed_sizes listed k)) locks.
Lemma reads_sizes : forall l, Forall (fun p : list Z * list Z => zlen (fst p) < 2 ^ 16 /\ zlen (snd p) < 2 ^ 32) l ->
  Reads (rrep (length l) (rbind (rnum 2) (fun c => rbind (rnum 4) (fun p => rret (c, p))))) (concat (map (fun p => be 2 (zlen (fst p)) ++ be 4 (zlen (snd p))) l)) (sizes l).
Proof.
  intros l F. unfold sizes. rewrite <- (map_length (fun p : list Z * list Z => (zlen (fst p), zlen (snd p))) l). apply reads_rep. induction F as [|p l (H1 & H2) F IH]; [constructor|]. cbn [map]. constructor; [|exact IH]. pose proof (zlen_nonneg (fst p)). pose proof (zlen_nonneg (snd p)).
  eapply reads_bind; [apply (reads_num 2); change (256 ^ Z.of_nat 2) with (2 ^ 16); lia|]. rewrite <- (app_nil_r (be 4 (zlen (snd p)))). eapply reads_bind; [apply (reads_num 4); change (256 ^ Z.of_nat 4) with (2 ^ 32); lia|]. apply reads_ret.
Qed.
Lemma reads_lock : forall listed k, lock_ok listed k -> Reads (get_single (bit listed 1)) (entry_bytes listed k) (be 8 (l_vector k), listed_sizes listed k).
Proof.
  intros listed k (V & W & L & K). unfold get_single, entry_bytes, listed_sizes. eapply reads_bind; [apply reads_bytes; apply be_length|]. destruct listed.
  - change (Z.testbit (bit true 1) 1) with true. cbv iota. destruct K as (_ & K1 & K2). pose proof (zlen_nonneg (l_parts k)). rewrite <- (app_nil_r (be 2 _ ++ _)). eapply reads_bind; [|apply reads_ret]. eapply reads_bind; [apply (reads_num 2); change (256 ^ Z.of_nat 2) with (2 ^ 16); lia|]. unfold zlen at 1. rewrite Nat2Z.id. apply reads_sizes. exact K2.
  - change (Z.testbit (bit false 1) 1) with false. cbv iota. rewrite <- (app_nil_r (@nil Z)). eapply reads_bind; apply reads_ret.
Qed.
Lemma reads_senc : forall listed l, Forall (lock_ok listed) l -> zlen l < 2 ^ 32 -> Reads get_senc (senc_content listed l) (vectors_of listed l).
Proof.
  intros listed l F L. unfold get_senc, senc_content, vectors_of. pose proof (zlen_nonneg l). eapply reads_bind; [apply (reads_num 1 0); cbn; lia|]. eapply reads_bind; [apply (reads_num 3); destruct listed; vm_compute; split; congruence|]. eapply reads_bind; [apply (reads_num 4); change (256 ^ Z.of_nat 4) with (2 ^ 32); lia|]. unfold zlen. rewrite Nat2Z.id. rewrite <- (map_length (fun k => (be 8 (l_vector k), listed_sizes listed k)) l). apply reads_rep. clear L H. induction F as [|k l H F IH]; [constructor|]. cbn [map]. constructor; [apply reads_lock; exact H|exact IH].
Qed.
Lemma walks_nil : walks [] None.
Proof. apply others_walks. constructor. Qed.
Lemma senced_mdat : forall m se, m_mdat (senced m se) = m_mdat m. Proof. intros m [l|]; reflexivity. Qed.
Lemma walks_app : forall a b sa sb, walks a sa -> walks b sb -> walks (a ++ b) (match sb with Some l => Some l | None => sa end).
Proof.
  intros a b sa sb Ha Hb pre post m fuel L Hm. assert (Eo : other_boxes (a ++ b) = other_boxes a ++ other_boxes b) by (unfold other_boxes; rewrite map_app, concat_app; reflexivity). rewrite Eo, app_length, <- !app_assoc, <- Nat.add_assoc. rewrite Ha; [|rewrite zlen_app'; pose proof (zlen_nonneg (other_boxes b)); lia|exact Hm].
  specialize (Hb (pre ++ other_boxes a) post (senced m sa) fuel L). rewrite senced_mdat in Hb. specialize (Hb Hm). rewrite <- !app_assoc in Hb. rewrite Hb. destruct sa, sb; reflexivity.
Qed.
Lemma walks_one : forall t b se, plain t -> 8 + zlen b < 2 ^ 32 -> (forall pre post m, handle_box (pre ++ layout (Leaf t b) ++ post) (mkR (zlen pre + 8) (zlen pre) (8 + zlen b) t) m = Some (senced m se, zlen pre + (8 + zlen b))) -> walks [(t, b)] se.
Proof.
  intros t b se P L H pre post m fuel Lp Hm. change (other_boxes [(t, b)]) with (layout (Leaf t b) ++ []). rewrite app_nil_r. cbn [length Nat.add]. apply (step_leaf _ pre post m fuel t b (senced m se)); [reflexivity|exact P|exact L|exact Lp|rewrite senced_mdat; exact Hm|apply H].
Qed.
Lemma walks_beside : forall l, Forall beside l -> walks l None.
Proof.
  intros l F. induction F as [|[t b] l (T & L & H) F IH]; [exact walks_nil|]. cbn [fst snd] in *. apply (walks_app [(t, b)] l None None); [|exact IH]. destruct H as [H|[(H & C)|(H & C)]].
  - apply others_walks. constructor; [|constructor]. cbn [fst snd]. tauto.
  - subst t. destruct (reads_saiz b C) as (v & R). apply walks_one; [splain|exact L|]. intros pre post m. transitivity (match get_saiz (pre ++ layout (Leaf SAIZ b) ++ post) (zlen pre + 8) with Some (_, p) => Some (m, p) | None => None end); [reflexivity|]. rewrite (leaf_read _ _ _ _ _ _ R), leaf_zlen. reflexivity.
  - subst t. destruct (reads_saio b C) as (v & R). apply walks_one; [splain|exact L|]. intros pre post m. transitivity (match get_saio (pre ++ layout (Leaf SAIO b) ++ post) (zlen pre + 8) with Some (_, p) => Some (m, p) | None => None end); [reflexivity|]. rewrite (leaf_read _ _ _ _ _ _ R), leaf_zlen. reflexivity.
Qed.
Lemma walks_senc : forall listed locks, Forall (lock_ok listed) locks -> zlen locks < 2 ^ 32 -> 8 + zlen (senc_content listed locks) < 2 ^ 32 -> walks [(SENC, senc_content listed locks)] (Some (vectors_of listed locks)).
Proof.
  intros listed locks F N L. pose proof (reads_senc listed locks F N) as R. apply walks_one; [splain|exact L|]. intros pre post m. transitivity (match get_senc (pre ++ layout (Leaf SENC (senc_content listed locks)) ++ post) (zlen pre + 8) with Some (d, p) => Some (with_senc m d, p) | None => None end); [reflexivity|]. rewrite (leaf_read _ _ _ _ _ _ R), leaf_zlen. reflexivity.
Qed.
Lemma sealed_good : forall E x locks, cipher E -> sealed_ok E x locks -> good (Some E) x (map plain_of locks).
Proof.
  intros E x locks C (O1 & O2 & O & listed & a & b & Ea & A & B & K & L & F). split; [exact O1|]. split; [exact O|]. split; [apply others_walks; exact O2|]. exists (Some (vectors_of listed locks)).
  assert (Ll : length (o_samples x) = length locks) by (clear - F; induction F; cbn [length]; congruence). split; [|split].
  - rewrite Ea. change (walks (a ++ [(SENC, senc_content listed locks)] ++ b) (Some (vectors_of listed locks))). assert (N : zlen locks < 2 ^ 32) by (destruct O as (_ & _ & _ & _ & _ & _ & _ & _ & _ & N & _); unfold zlen in *; rewrite <- Ll; exact N).
    exact (walks_app a _ None _ (walks_beside a A) (walks_app _ b _ None (walks_senc listed locks K N L) (walks_beside b B))).
  - rewrite map_length. exact Ll.
  - intros j s p Hs Hp M HM. rewrite nth_error_map in Hp. destruct (nth_error locks j) as [k|] eqn:Ek; [|discriminate]. injection Hp as <-. unfold decode. rewrite HM. unfold vectors_of. rewrite nth_error_map, Ek. cbn [option_map]. f_equal. apply unlock_sample; [exact C|exact (proj1 (Forall_forall _ _) K k (nth_error_In _ _ Ek))|].
    clear - F Hs Ek. revert j Hs Ek. induction F as [|s' k' ls lk H F IH]; intros [|j] Hs Ek; try discriminate; cbn in *; [injection Hs as ->; injection Ek as ->; exact H|exact (IH j Hs Ek)].
Qed.
Lemma sealed_read : forall E l f locks, cipher E -> foreign_file 0 l f -> Forall2 (sealed_ok E) l locks -> zlen f < 2 ^ 60 ->
  read_file (Some E) f = Some (map (fun t => timed (o_base (fst t)) (opened (o_samples (fst t)) (map plain_of (snd t)))) (combine l locks)).
Proof.
  intros E l f locks C H F L. rewrite (foreign_read_general (Some E) l f (map (map plain_of) locks) H); [|clear H|exact L].
  - f_equal. clear. revert locks. induction l as [|x l IH]; intros [|k locks]; try reflexivity. cbn [map combine fst snd]. rewrite IH. reflexivity.
  - induction F as [|x k l locks H F IH]; [constructor|]. cbn [map]. constructor; [apply sealed_good; assumption|exact IH].
Qed.
