(** Proofs about the avcC record (Sps_model). *)
From Verif Require Import Util Bits_spec Bits_lemmas Bitstream_model Nal_model Nal_proofs Sps_model Sps_proofs.
From Coq Require Import ZifyNat.
Local Open Scope Z_scope.
Local Ltac Zify.zify_post_hook ::= Z.div_mod_to_equations.

Lemma rd_bytes u : bytes u -> Rd (rep (length u) (getb 8)) (bytes_bits u) u.
Proof.
  intro B. unfold bytes_bits. rewrite flat_map_concat_map. eapply rd_rep; [|exact B]. intros x X. unfold byte_bits. apply rd_getb. unfold is_u, is_byte in *. lia.
Qed.
Lemma be16_bits v : 0 <= v < 65536 -> bytes_bits (be16 v) = field_bits v 16.
Proof.
  intro R. unfold be16, bytes_bits. cbn [flat_map]. rewrite app_nil_r. unfold byte_bits.
  apply nth_ext with (d := false) (d' := false); [rewrite app_length, !field_bits_length; reflexivity|].
  intros k K. rewrite app_length, !field_bits_length in K. rewrite (nth_field_bits v 16 k) by lia.
  destruct (Nat.lt_ge_cases k 8) as [L|L].
  - rewrite app_nth1 by (rewrite field_bits_length; lia). rewrite nth_field_bits by lia.
    change 256 with (2 ^ 8). rewrite Z.mod_pow2_bits_low, Z.div_pow2_bits by lia. f_equal. lia.
  - rewrite app_nth2; rewrite field_bits_length; [|lia]. rewrite nth_field_bits by lia.
    change 256 with (2 ^ 8). rewrite Z.mod_pow2_bits_low by lia. f_equal. lia.
Qed.
Definition set_bytes (u : list Z) : list Z := be16 (Z.of_nat (length u)) ++ u.
Lemma rd_set {A} (p : getter A) u v : bytes u -> (length u <= 256)%nat -> parse_nal p u = Ok v -> Rd (get_set p) (bytes_bits (set_bytes u)) (u, v).
Proof.
  intros B L E. unfold set_bytes, get_set. rewrite bytes_bits_app, be16_bits by lia.
  eapply rd_bind; [apply rd_getb; unfold is_u; lia|]. destruct (Z.ltb_spec 256 (Z.of_nat (length u))); [lia|]. rewrite Nat2Z.id.
  eapply rd_bind0; [apply rd_bytes, B|]. intro rest. rewrite E. reflexivity.
Qed.
Lemma rd_sets {A} (p : getter A) us vs : Forall2 (fun u v => bytes u /\ (length u <= 256)%nat /\ parse_nal p u = Ok v) us vs ->
  Rd (rep (length us) (get_set p)) (bytes_bits (concat (map set_bytes us))) (combine us vs).
Proof.
  induction 1 as [|u v us vs (B & L & E) F IH]; [apply rd_ret|]. cbn [length rep map concat combine]. rewrite bytes_bits_app.
  eapply rd_bind; [apply rd_set; eassumption|]. eapply rd_bind0; [exact IH|apply rd_ret].
Qed.
Lemma Forall2_length_eq {A B} (P : A -> B -> Prop) l m : Forall2 P l m -> length l = length m.
Proof. induction 1; cbn [length]; lia. Qed.
Lemma combine_fst {A B} (l : list A) (m : list B) : length l = length m -> map fst (combine l m) = l.
Proof. revert m. induction l as [|x l IH]; intros [|y m] L; try discriminate; [reflexivity|]. cbn [combine map fst]. f_equal. apply IH. cbn in L. lia. Qed.
Lemma combine_snd {A B} (l : list A) (m : list B) : length l = length m -> map snd (combine l m) = m.
Proof. revert m. induction l as [|x l IH]; intros [|y m] L; try discriminate; [reflexivity|]. cbn [combine map snd]. f_equal. apply IH. cbn in L. lia. Qed.
Lemma record_read profile compat level size ss sv ps pv more : is_byte profile -> is_byte compat -> is_byte level -> 0 <= size < 4 ->
  (length ss < 32)%nat -> (length ps < 256)%nat ->
  Forall2 (fun u v => bytes u /\ (length u <= 256)%nat /\ parse_nal get_sps u = Ok v) ss sv ->
  Forall2 (fun u v => bytes u /\ (length u <= 256)%nat /\ parse_nal get_pps u = Ok v) ps pv ->
  get_avcc (bytes_bits ([1; profile; compat; level; 252 + size; 224 + Z.of_nat (length ss)] ++ concat (map set_bytes ss) ++ [Z.of_nat (length ps)] ++ concat (map set_bytes ps) ++ more))
   = Ok (mkAvcc profile compat level size sv pv ss ps, bytes_bits more).
Proof.
  intros B1 B2 B3 R L1 L2 F1 F2. pose proof (Forall2_length_eq _ _ _ F1) as N1. pose proof (Forall2_length_eq _ _ _ F2) as N2.
  rewrite !bytes_bits_app.
  assert (E6 : byte_bits (252 + size) = field_bits 63 6 ++ field_bits size 2) by (assert (size = 0 \/ size = 1 \/ size = 2 \/ size = 3) as [->|[->|[->| ->]]] by lia; reflexivity).
  assert (E3 : byte_bits (224 + Z.of_nat (length ss)) = field_bits 7 3 ++ field_bits (Z.of_nat (length ss)) 5).
  { clear - L1. set (n := length ss) in *. clearbody n. do 32 (destruct n as [|n]; [reflexivity|]). lia. }
  unfold bytes_bits at 1. cbn [flat_map]. rewrite E6, E3. cbn [app]. rewrite app_nil_r. unfold bytes_bits at 2. cbn [flat_map]. rewrite app_nil_r. unfold byte_bits.
  rewrite <- !app_assoc.
  match goal with |- get_avcc ?s = _ => set (S0 := s) end.
  assert (RD : Rd get_avcc (field_bits 1 8 ++ field_bits profile 8 ++ field_bits compat 8 ++ field_bits level 8 ++ field_bits 63 6 ++ field_bits size 2 ++ field_bits 7 3 ++ field_bits (Z.of_nat (length ss)) 5 ++ bytes_bits (concat (map set_bytes ss)) ++ field_bits (Z.of_nat (length ps)) 8 ++ bytes_bits (concat (map set_bytes ps))) (mkAvcc profile compat level size sv pv ss ps)).
  { unfold get_avcc, is_byte in *. do 8 (eapply rd_bind; [apply rd_getb; unfold is_u; lia|]). rewrite Nat2Z.id.
    eapply rd_bind; [apply rd_sets; exact F1|]. eapply rd_bind; [apply rd_getb; unfold is_u; lia|]. rewrite Nat2Z.id.
    eapply rd_bind0; [apply rd_sets; exact F2|]. rewrite !combine_fst, !combine_snd by assumption. apply rd_ret. }
  specialize (RD (bytes_bits more)). rewrite <- !app_assoc in RD. exact RD.
Qed.
Lemma escape_bytes : forall r, bytes r -> forall z, bytes (escape z r).
Proof.
  assert (T : is_byte 3) by (unfold is_byte; lia).
  unfold bytes. induction 1 as [|x r X F IH]; intro z.
  - destruct z; cbn [escape]; [constructor|constructor; [exact T|constructor]].
  - destruct z as [|[|[|z]]]; cbn [escape]; [| |destruct (x <=? 3)|]; repeat (apply Forall_cons; [assumption|]); apply IH.
Qed.
Lemma unit_bytes type u r : is_unit type u r -> bytes r -> bytes u.
Proof. intros (h & H & _ & ->) B. apply Forall_cons; [exact H|]. apply escape_bytes, B. Qed.

Lemma sps_back s u : sps_known s -> carries 7 u (sps_syntax s) -> parse_nal get_sps u = Ok (read_as s).
Proof.
  intros (H & NM & HP) (r & R & U & L). eapply parse_unit; [exact U|exact L|]. apply get_sps_ok; [exact H|exact NM|tauto|exact R].
Qed.
Lemma pps_back p u more : pps_known p -> carries 8 u (pps_syntax p ++ more) -> parse_nal get_pps u = Ok p.
Proof.
  intros (H & NA) (r & R & U & L). destruct (get_pps_ok p r more H NA R) as [rest E]. eapply parse_unit; [exact U|exact L|exact E].
Qed.
Lemma carries_bytes type u syntax : carries type u syntax -> bytes u.
Proof. intros (r & (B & _) & U & _). exact (unit_bytes type u r U B). Qed.
Lemma set_bytes_eq u : (length u <= 256)%nat -> set_bytes u = with_length u.
Proof. intro L. unfold set_bytes, with_length, be16. rewrite (Z.mod_small (Z.of_nat (length u) / 256)) by lia. reflexivity. Qed.
Lemma set_bytes_all us : Forall (fun u => (length u <= 256)%nat) us -> map set_bytes us = map with_length us.
Proof. intro F. apply map_ext_in. intros u U. apply set_bytes_eq. rewrite Forall_forall in F. exact (F u U). Qed.
Lemma record_back profile compat level size ss sv ps pv more : is_byte profile -> is_byte compat -> is_byte level -> 0 <= size < 4 ->
  (length ss < 32)%nat -> (length ps < 256)%nat ->
  Forall2 (fun u s => (length u <= 256)%nat /\ sps_known s /\ carries 7 u (sps_syntax s)) ss sv ->
  Forall2 (fun u p => (length u <= 256)%nat /\ pps_known p /\ exists ext, carries 8 u (pps_syntax p ++ ext)) ps pv ->
  get_avcc (bytes_bits (record_syntax profile compat level size ss ps ++ more)) = Ok (mkAvcc profile compat level size (map read_as sv) pv ss ps, bytes_bits more).
Proof.
  intros B1 B2 B3 R L1 L2 F1 F2.
  assert (G1 : Forall2 (fun u v => bytes u /\ (length u <= 256)%nat /\ parse_nal get_sps u = Ok v) ss (map read_as sv)).
  { clear - F1. induction F1 as [|u s ss sv (L & K & C) F IH]; [constructor|]. cbn [map]. constructor; [|exact IH]. split; [exact (carries_bytes _ _ _ C)|]. split; [exact L|]. exact (sps_back s u K C). }
  assert (G2 : Forall2 (fun u v => bytes u /\ (length u <= 256)%nat /\ parse_nal get_pps u = Ok v) ps pv).
  { clear - F2. induction F2 as [|u s ss sv (L & K & e & C) F IH]; [constructor|]. constructor; [|exact IH]. split; [exact (carries_bytes _ _ _ C)|]. split; [exact L|]. exact (pps_back s u e K C). }
  rewrite <- (record_read profile compat level size ss _ ps _ more B1 B2 B3 R L1 L2 G1 G2). f_equal. f_equal. unfold record_syntax.
  rewrite <- (set_bytes_all ss), <- (set_bytes_all ps); [rewrite <- !app_assoc; reflexivity| |].
  - clear - F2. induction F2 as [|u s ss sv (L & _) F IH]; constructor; assumption.
  - clear - F1. induction F1 as [|u s ss sv (L & _) F IH]; constructor; assumption.
Qed.
Lemma compat_byte s : is_byte (compatibility s).
Proof. unfold compatibility. destruct (q_constraints s) as [[[a b] c] d]. unfold is_byte. match goal with |- context[b2z ?x] => destruct x end; cbn [b2z]; lia. Qed.
Lemma put_avcc_eq profile compat level su pu : is_byte profile -> is_byte compat -> is_byte level -> (length su <= 256)%nat -> (length pu <= 256)%nat ->
  put_avcc profile compat level su pu = record_syntax profile compat level 3 [su] [pu].
Proof.
  unfold is_byte. intros B1 B2 B3 L1 L2. unfold put_avcc, record_syntax. cbn [map concat length]. rewrite !app_nil_r, <- !set_bytes_eq by assumption.
  rewrite !Z.mod_small by lia. unfold set_bytes. rewrite <- !app_assoc. reflexivity.
Qed.
Lemma record_written s su p pu ext : sps_known s -> carries 7 su (sps_syntax s) -> pps_known p -> carries 8 pu (pps_syntax p ++ ext) -> (length su <= 256)%nat -> (length pu <= 256)%nat ->
  exists compat, is_byte compat /\ record_of su pu = Ok ((16 * (q_width s + 1)) mod 2 ^ 32, (16 * (q_height s + 1)) mod 2 ^ 32, record_syntax (q_profile s) compat (q_level s) 3 [su] [pu]).
Proof.
  intros K C KP CP L1 L2. exists (compatibility (read_as s)). split; [apply compat_byte|]. unfold record_of. rewrite (sps_back s su K C). cbn [bindo].
  rewrite (proj2 (Nat.leb_le _ _) L1), (proj2 (Nat.leb_le _ _) L2). cbn [andb]. destruct K as (K & _). unfold sps_ok in K.
  assert (W : is_ue (q_width s) /\ is_ue (q_height s) /\ is_u 8 (q_profile s) /\ is_u 8 (q_level s)) by tauto. destruct W as (W1 & W2 & W3 & W4). unfold is_ue, is_u in *. change (2 ^ Z.of_nat 8) with 256 in *.
  change (q_width (read_as s)) with (q_width s). change (q_height (read_as s)) with (q_height s). change (q_profile (read_as s)) with (q_profile s). change (q_level (read_as s)) with (q_level s). rewrite put_avcc_eq; [|unfold is_byte; lia|apply compat_byte|unfold is_byte; lia|assumption|assumption].
  unfold u32. rewrite !(Z.mod_small (_ + 1)) by lia. reflexivity.
Qed.
Lemma record_round s su p pu ext more : sps_known s -> carries 7 su (sps_syntax s) -> pps_known p -> carries 8 pu (pps_syntax p ++ ext) -> (length su <= 256)%nat -> (length pu <= 256)%nat ->
  exists w h body a, record_of su pu = Ok (w, h, body) /\ get_avcc (bytes_bits (body ++ more)) = Ok (a, bytes_bits more)
    /\ get_sequence a = su /\ get_picture a = pu /\ a_profile a = q_profile s /\ a_level a = q_level s /\ get_nal_length_size a = 4 /\ a_sps a = [read_as s] /\ a_pps a = [p].
Proof.
  intros K C KP CP L1 L2. destruct (record_written s su p pu ext K C KP CP L1 L2) as (compat & B & E).
  assert (W : is_u 8 (q_profile s) /\ is_u 8 (q_level s)) by (destruct K as (K & _); unfold sps_ok in K; tauto). destruct W as [W1 W2]. unfold is_u in *. change (2 ^ Z.of_nat 8) with 256 in *.
  eexists _, _, _, _. split; [exact E|]. split.
  - apply (record_back (q_profile s) compat (q_level s) 3 [su] [s] [pu] [p] more); unfold is_byte; try (cbn; lia).
    + unfold is_byte in B. exact B.
    + constructor; [|constructor]. tauto.
    + constructor; [|constructor]. split; [exact L2|]. split; [exact KP|]. exists ext. exact CP.
  - unfold get_sequence, get_picture, get_nal_length_size. cbn [a_sps_units a_pps_units a_profile a_level a_size a_sps a_pps hd fold_left map]. unfold overlay. rewrite !skipn_nil, !app_nil_r, !firstn_all. repeat (split; [reflexivity|]). reflexivity.
Qed.
Lemma shown_plain s : q_field s = None -> q_crop s = None -> shown s = (16 * (q_width s + 1), 16 * (q_height s + 1)).
Proof. intros F C. unfold shown. rewrite F, C. f_equal; lia. Qed.
Lemma split_private_ok su pu more : bytes su -> bytes pu -> Z.of_nat (length su) < 65536 -> Z.of_nat (length pu) < 65536 ->
  split_private (with_length su ++ with_length pu ++ more) = Some (su, pu).
Proof.
  intros _ _ L1 L2. unfold with_length. cbn [app]. unfold split_private.
  replace (Z.of_nat (length su) / 256 * 256 + Z.of_nat (length su) mod 256) with (Z.of_nat (length su)) by lia.
  rewrite !Nat2Z.id, app_length. cbn [length]. destruct (Nat.leb_spec (length su + 2) (length su + S (S (length (pu ++ more))))); [|lia].
  rewrite skipn_app, skipn_all, Nat.sub_diag. cbn [skipn app].
  replace (Z.of_nat (length pu) / 256 * 256 + Z.of_nat (length pu) mod 256) with (Z.of_nat (length pu)) by lia.
  rewrite Nat2Z.id, app_length. destruct (Nat.leb_spec (length pu) (length pu + length more)); [|lia].
  rewrite !firstn_app, !firstn_all, !Nat.sub_diag. cbn [firstn]. rewrite !app_nil_r. reflexivity.
Qed.
