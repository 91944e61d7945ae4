(** Proofs for Ts_model: reading transport packets. *)
From Coq Require Import ZifyNat.
From Verif Require Import Util Bits_spec Bits_lemmas TsTime_model TsTime_proofs Ts_model Ts_proofs Ts_proofs2.
Local Open Scope Z_scope.
Local Ltac Zify.zify_post_hook ::= Z.div_mod_to_equations.

Lemma get_n_ok n : forall l, (n <= length l)%nat -> get_n n l = Some (firstn n l, skipn n l).
Proof.
  induction n as [|n IH]; intros l H; [reflexivity|]. destruct l as [|b l]; cbn [length] in H; [lia|].
  cbn [get_n firstn skipn]. rewrite IH by lia. reflexivity.
Qed.
Lemma field_bits_mod v n : field_bits (v mod 2 ^ Z.of_nat n) n = field_bits v n.
Proof.
  assert (G : forall k, (k <= n)%nat -> field_bits (v mod 2 ^ Z.of_nat n) k = field_bits v k).
  { induction k as [|k IH]; intros Hk; [reflexivity|]. cbn [field_bits]. rewrite IH by lia. f_equal. apply Z.mod_pow2_bits_low. lia. }
  apply G. lia.
Qed.

Lemma head_fields h1 h2 h3 : is_byte h1 -> is_byte h2 -> is_byte h3 ->
  fields [1; 1; 1; 13; 2; 1; 1; 4]%nat (bytes_bits [h1; h2; h3])
  = [h1 / 128; h1 / 64 mod 2; h1 / 32 mod 2; h1 mod 32 * 256 + h2; h3 / 64; h3 / 32 mod 2; h3 / 16 mod 2; h3 mod 16].
Proof.
  intros B1 B2 B3. unfold is_byte in *.
  pose (fs := [(h1 / 128, 1%nat); (h1 / 64, 1%nat); (h1 / 32, 1%nat); (h1 mod 32 * 256 + h2, 13%nat); (h3 / 64, 2%nat); (h3 / 32, 1%nat); (h3 / 16, 1%nat); (h3, 4%nat)]).
  assert (E : bytes_bits [h1; h2; h3] = fbits fs).
  { unfold bytes_bits, byte_bits, fbits, fs. cbn [flat_map fst snd]. rewrite !app_nil_r.
    change (field_bits h1 8) with (field_bits h1 (1 + (1 + (1 + 5)))). rewrite !field_bits_split.
    change (field_bits h3 8) with (field_bits h3 (2 + (1 + (1 + 4)))). rewrite !field_bits_split.
    change (field_bits (h1 mod 32 * 256 + h2) 13) with (field_bits (h1 mod 32 * 256 + h2) (5 + 8)). rewrite field_bits_split.
    change (2 ^ Z.of_nat (1 + (1 + 5))) with 128. change (2 ^ Z.of_nat (1 + 5)) with 64. change (2 ^ Z.of_nat 5) with 32.
    change (2 ^ Z.of_nat (1 + (1 + 4))) with 64. change (2 ^ Z.of_nat (1 + 4)) with 32. change (2 ^ Z.of_nat 4) with 16. change (2 ^ Z.of_nat 8) with 256.
    rewrite <- !app_assoc. do 3 f_equal. replace ((h1 mod 32 * 256 + h2) / 256) with (h1 mod 2 ^ Z.of_nat 5) by (change (2 ^ Z.of_nat 5) with 32; lia).
    rewrite field_bits_mod. f_equal. f_equal. rewrite <- (field_bits_mod (h1 mod 32 * 256 + h2) 8). replace ((h1 mod 32 * 256 + h2) mod 2 ^ Z.of_nat 8) with h2; [reflexivity|]. change (2 ^ Z.of_nat 8) with 256. lia. }
  rewrite E. pose proof (fields_concat fs []) as Q. rewrite app_nil_r in Q. fold (fbits fs) in Q.
  change (map snd fs) with [1; 1; 1; 13; 2; 1; 1; 4]%nat in Q. rewrite Q. unfold fs. cbn [map fst snd].
  change (2 ^ Z.of_nat 1) with 2. change (2 ^ Z.of_nat 13) with 8192. change (2 ^ Z.of_nat 2) with 4. change (2 ^ Z.of_nat 4) with 16.
  repeat (apply (f_equal2 cons); [lia|]). reflexivity.
Qed.

Lemma bits_val_firstn a b l : (a + b <= length l)%nat -> bits_val (firstn (a + b) l) = bits_val (firstn a l) * 2 ^ Z.of_nat b + bits_val (firstn b (skipn a l)).
Proof.
  intros H. assert (E : firstn (a + b) l = firstn a l ++ firstn b (skipn a l)).
  { rewrite <- (firstn_skipn a l) at 1. rewrite firstn_app, firstn_firstn, firstn_length. replace (min (a + b) a) with a by lia. f_equal. f_equal. lia. }
  rewrite E, bits_val_app. rewrite firstn_length, skipn_length. do 3 f_equal. lia.
Qed.

Lemma pcr_read b0 b1 b2 b3 b4 b5 : bytes [b0; b1; b2; b3; b4; b5] -> exists a b c x e,
  fields [3; 15; 15; 6; 9]%nat (bytes_bits [b0; b1; b2; b3; b4; b5]) = [a; b; c; x; e]
  /\ a * 2 ^ 30 + b * 2 ^ 15 + c = (((b0 * 256 + b1) * 256 + b2) * 256 + b3) * 2 + b4 / 128
  /\ e = b4 mod 2 * 256 + b5 /\ 0 <= a < 8 /\ 0 <= b < 2 ^ 15 /\ 0 <= c < 2 ^ 15.
Proof.
  intros B. rewrite !bytes_cons in B. destruct B as (B0 & B1 & B2 & B3 & B4 & B5 & _).
  set (l := bytes_bits [b0; b1; b2; b3; b4; b5]). assert (L : length l = 48%nat) by apply bytes_bits_length.
  cbn [fields]. do 5 eexists. split; [reflexivity|]. rewrite !skipn_skipn. cbn [Nat.add].
  pose proof (base33 b0 b1 b2 b3 b4 [b5] B0 B1 B2 B3 B4) as E. fold l in E.
  pose proof (bits_val_firstn 3 30 l ltac:(lia)) as E1. change (3 + 30)%nat with 33%nat in E1.
  pose proof (bits_val_firstn 15 15 (skipn 3 l) ltac:(rewrite skipn_length; lia)) as E2. change (15 + 15)%nat with 30%nat in E2.
  rewrite skipn_skipn in E2. change (15 + 3)%nat with 18%nat in E2. change (Z.of_nat 30) with 30 in E1. change (Z.of_nat 15) with 15 in E2.
  assert (R : forall n k, (k + n <= 48)%nat -> 0 <= bits_val (firstn n (skipn k l)) < 2 ^ Z.of_nat n).
  { intros n k H. pose proof (bits_val_range (firstn n (skipn k l))) as Q. rewrite firstn_length, skipn_length, L in Q. replace (min n (48 - k)) with n in Q by lia. exact Q. }
  split; [|split; [|split; [|split]]].
  - rewrite <- E, E1, E2. lia.
  - assert (Q : skipn 39 l = field_bits b4 1 ++ field_bits b5 8) by reflexivity. rewrite firstn_all2 by (rewrite skipn_length; lia). rewrite Q, bits_val_app, !bits_val_field, !field_bits_length.
    change (Z.of_nat 8) with 8. change (Z.of_nat 1) with 1. unfold is_byte in *. change (2 ^ 8) with 256. change (2 ^ 1) with 2. lia.
  - apply (R 3%nat 0%nat). lia.
  - apply (R 15%nat 3%nat). lia.
  - apply (R 15%nat 18%nat). lia.
Qed.

Lemma bit_of_div b i : 0 <= b -> 0 <= i -> bit_of b i = b / 2 ^ i mod 2.
Proof. intros Hb Hi. unfold bit_of. rewrite <- Z.testbit_spec' by lia. destruct (Z.testbit b i); reflexivity. Qed.

Lemma get_adapt_ok len r rest : is_byte len -> bytes r -> len <= 183 -> zlen r = len ->
  (0 < len -> nth 0 r 0 mod 4 = 0 /\ 1 + 6 * (nth 0 r 0 / 16 mod 2) + 6 * (nth 0 r 0 / 8 mod 2) + nth 0 r 0 / 4 mod 2 <= len) ->
  exists pcr, get_adapt (len :: r ++ rest) = Some (len, (if 0 <? len then nth 0 r 0 / 64 mod 2 else 0), pcr, rest)
   /\ b2z (present pcr) = (if 0 <? len then nth 0 r 0 / 16 mod 2 else 0)
   /\ (forall a b c e, pcr = Some (a, b, c, e) -> a * 2 ^ 30 + b * 2 ^ 15 + c = (((nth 1 r 0 * 256 + nth 2 r 0) * 256 + nth 3 r 0) * 256 + nth 4 r 0) * 2 + nth 5 r 0 / 128
        /\ e = nth 5 r 0 mod 2 * 256 + nth 6 r 0 /\ 0 <= a < 8 /\ 0 <= b < 2 ^ 15 /\ 0 <= c < 2 ^ 15).
Proof.
  intros Bl Br Hl Hr Hf. unfold get_adapt. unfold is_byte in Bl.
  destruct (Z.ltb_spec 0 len) as [P|P].
  2:{ assert (len = 0) by lia. subst len. destruct r; [|rewrite zlen_cons in *; pose proof (zlen_nonneg r); lia].
      exists None. cbn [andb negb app]. split; [|split; [reflexivity|discriminate]]. reflexivity. }
  rewrite (proj2 (Z.leb_le len 183)) by lia. cbn [andb negb]. destruct (Hf P) as [F4 F]. clear Hf.
  destruct r as [|fl r]; [unfold zlen in Hr; cbn in Hr; lia|]. cbn [app nth] in *. rewrite zlen_cons in Hr.
  apply bytes_cons in Br. destruct Br as [Bf Br]. unfold is_byte in Bf.
  rewrite !bit_of_div by lia. change (2 ^ 0) with 1. change (2 ^ 4) with 16. change (2 ^ 3) with 8. change (2 ^ 2) with 4. change (2 ^ 1) with 2. change (2 ^ 6) with 64.
  destruct (Z.eqb_spec (fl / 1 mod 2) 1); [lia|]. destruct (Z.eqb_spec (fl / 2 mod 2) 1); [lia|].
  set (pf := fl / 16 mod 2) in *. set (of := fl / 8 mod 2) in *. set (sf := fl / 4 mod 2) in *.
  assert (R : 0 <= pf <= 1 /\ 0 <= of <= 1 /\ 0 <= sf <= 1) by (unfold pf, of, sf; lia).
  assert (T : forall (pcr : option (Z * Z * Z * Z)) q, zlen q = len - 1 - 6 * pf -> 
     match get_n (Z.to_nat (6 * of + sf)) (q ++ rest) with
     | None => None
     | Some (_, r3) => match get_n (Z.to_nat (len - (1 + 6 * pf + 6 * of + sf))) r3 with None => None | Some (_, r5) => Some (len, fl / 64 mod 2, pcr, r5) end
     end = Some (len, fl / 64 mod 2, pcr, rest)).
  { intros pcr q Hq. unfold zlen in Hq. rewrite get_n_ok by (rewrite app_length; lia). rewrite get_n_ok by (rewrite skipn_length, app_length; lia).
    rewrite skipn_skipn. do 2 f_equal. rewrite skipn_app, skipn_all2 by lia. replace (_ - length q)%nat with 0%nat by lia. reflexivity. }
  destruct (Z.eqb_spec pf 1) as [Ep|Ep].
  - assert (L6 : (6 <= length r)%nat) by (unfold zlen in Hr; lia).
    destruct r as [|b0 [|b1 [|b2 [|b3 [|b4 [|b5 q]]]]]]; cbn [length] in L6; try lia.
    cbn [app]. rewrite get_n_ok by (cbn [length]; lia). cbn [firstn skipn].
    assert (B6 : bytes [b0; b1; b2; b3; b4; b5]) by (rewrite !bytes_cons in Br |- *; repeat split; try apply Br; constructor).
    destruct (pcr_read b0 b1 b2 b3 b4 b5 B6) as (a & b & c & x & e & E & V). rewrite E.
    exists (Some (a, b, c, e)). split; [apply T; rewrite !zlen_cons in Hr; lia|]. split; [exact (eq_sym Ep)|].
    intros a' b' c' e' [= <- <- <- <-]. cbn [nth]. exact V.
  - exists None. split; [apply T; lia|]. split; [cbn; lia|discriminate].
Qed.

Lemma get_packet_ok p rest : length p = 188%nat -> bytes p -> iso_sync p = 0x47 -> nth 1 p 0 / 128 = 0 -> iso_plain_af p ->
  iso_has_payload p = 1 \/ (iso_af p = 1 /\ nth 4 p 0 = 183) ->
  exists t, get_packet (p ++ rest) = Some (t, rest) /\ t_tei t = 0 /\ t_pusi t = iso_pusi p /\ t_pid t = iso_pid p /\ t_cc t = iso_cc p
   /\ t_rai t = iso_rai p /\ t_payload t = (if iso_has_payload p =? 1 then iso_payload p else []) /\ t_pay t = iso_has_payload p /\ t_af t = iso_af p /\ (iso_af p = 1 -> t_aflen t = nth 4 p 0)
   /\ b2z (present (t_pcr t)) = iso_pcr_flag p
   /\ (forall a b c e, t_pcr t = Some (a, b, c, e) -> a * 2 ^ 30 + b * 2 ^ 15 + c = iso_pcr_base p /\ e = iso_pcr_ext p /\ 0 <= a < 8 /\ 0 <= b < 2 ^ 15 /\ 0 <= c < 2 ^ 15).
Proof.
  intros L B S T SA HP. destruct p as [|h0 [|h1 [|h2 [|h3 q]]]]; try discriminate L. cbn [length] in L.
  unfold iso_sync in S. cbn [nth] in S, T. subst h0. unfold get_packet. cbn [app sync Z.eqb Pos.eqb].
  rewrite get_n_ok by (cbn [length]; lia). cbn [firstn skipn].
  rewrite !bytes_cons in B. destruct B as (_ & B1 & B2 & B3 & Bq). rewrite head_fields by assumption. rewrite T. cbn [Z.eqb].
  unfold iso_plain_af in SA. unfold iso_pcr_base, iso_pcr_ext, iso_payload, iso_rai, iso_pcr_flag, iso_pusi, iso_pid, iso_cc in *. unfold iso_af, iso_has_payload in *. cbn [nth] in *.
  set (af := h3 / 32 mod 2) in *. set (pf := h3 / 16 mod 2) in *. assert (0 <= af <= 1 /\ 0 <= pf <= 1) by (unfold af, pf; lia).
  destruct (Z.eqb_spec af 1) as [Ea|Ea].
  - destruct (SA Ea) as [SL SF]. destruct q as [|len q]; [discriminate L|]. cbn [nth app length] in *. apply bytes_cons in Bq. destruct Bq as [Bl Bq].
    assert (Hl : 0 <= len) by (unfold is_byte in Bl; lia).
    replace (q ++ rest) with (firstn (Z.to_nat len) q ++ skipn (Z.to_nat len) q ++ rest) by (rewrite app_assoc, firstn_skipn; reflexivity).
    destruct (get_adapt_ok len (firstn (Z.to_nat len) q) (skipn (Z.to_nat len) q ++ rest) Bl (bytes_firstn _ _ Bq) SL) as (pcr & E & V1 & V2).
    { apply zlen_firstn. unfold zlen. lia. }
    { intros Hp. rewrite nth_firstn by lia. apply SF. exact Hp. }
    rewrite E. rewrite (proj2 (Z.leb_le len 183)) by lia. rewrite andb_true_r. cbn [andb].
    assert (N0 : 0 < len -> nth 0 (firstn (Z.to_nat len) q) 0 = nth 0 q 0) by (intros; apply nth_firstn; lia).
    assert (V : (if 0 <? len then nth 0 (firstn (Z.to_nat len) q) 0 / 64 mod 2 else 0) = (if 0 <? len then nth 0 q 0 / 64 mod 2 else 0)).
    { destruct (Z.ltb_spec 0 len); [rewrite N0 by lia|]; reflexivity. }
    assert (V3 : b2z (present pcr) = (if 0 <? len then nth 0 q 0 / 16 mod 2 else 0)).
    { rewrite V1. destruct (Z.ltb_spec 0 len); [rewrite N0 by lia|]; reflexivity. }
    assert (V4 : forall a b c e, pcr = Some (a, b, c, e) -> a * 2 ^ 30 + b * 2 ^ 15 + c = (((nth 1 q 0 * 256 + nth 2 q 0) * 256 + nth 3 q 0) * 256 + nth 4 q 0) * 2 + nth 5 q 0 / 128
        /\ e = nth 5 q 0 mod 2 * 256 + nth 6 q 0 /\ 0 <= a < 8 /\ 0 <= b < 2 ^ 15 /\ 0 <= c < 2 ^ 15).
    { intros a b c e Hq. destruct (Z.ltb_spec 0 len) as [P|P]; [|rewrite Hq in V1; discriminate V1]. 
      assert (7 <= len). { rewrite N0 in V1 by lia. rewrite Hq in V1. cbn [present b2z] in V1. destruct (SF P) as [_ SF']. assert (0 <= nth 0 q 0 / 8 mod 2 /\ 0 <= nth 0 q 0 / 4 mod 2) by lia. lia. }
      specialize (V2 a b c e Hq). rewrite !nth_firstn in V2 by lia. exact V2. }
    rewrite V. destruct (Z.eqb_spec pf 1) as [Ep|Ep].
    + rewrite get_n_ok by (rewrite app_length, skipn_length; lia).
      eexists. split.
      { do 2 f_equal. rewrite skipn_app, skipn_all2 by (rewrite skipn_length; lia). replace (_ - _)%nat with 0%nat by (rewrite skipn_length; lia). reflexivity. }
      cbn [t_tei t_pusi t_pid t_cc t_rai t_payload t_pay t_af t_aflen t_pcr]. repeat (split; [reflexivity|]).
      split; [|split; [reflexivity|split; [reflexivity|split; [reflexivity|split; [exact V3|exact V4]]]]].
      rewrite firstn_app. replace (_ - length (skipn (Z.to_nat len) q))%nat with 0%nat by (rewrite skipn_length; lia). rewrite firstn_O, app_nil_r, firstn_all2 by (rewrite skipn_length; lia). reflexivity.
    + destruct HP as [HP|[_ HP]]; [congruence|]. subst len.
      eexists. split.
      { do 2 f_equal. rewrite skipn_all2 by lia. reflexivity. }
      cbn [t_tei t_pusi t_pid t_cc t_rai t_payload t_pay t_af t_aflen t_pcr]. repeat (split; [reflexivity|]).
      split; [exact V3|exact V4].
  - destruct HP as [HP|[HP _]]; [|congruence]. rewrite (proj2 (Z.eqb_eq pf 1) HP).
    rewrite get_n_ok by (rewrite app_length; lia). eexists. split.
    { do 2 f_equal. rewrite skipn_app, skipn_all2 by lia. replace (184 - length q)%nat with 0%nat by lia. reflexivity. }
    cbn [t_tei t_pusi t_pid t_cc t_rai t_payload t_pay t_af t_aflen t_pcr andb]. repeat (split; [reflexivity|]).
    split; [|split; [reflexivity|split; [reflexivity|split; [congruence|split; [reflexivity|discriminate]]]]].
    rewrite firstn_app. replace (184 - length q)%nat with 0%nat by lia. rewrite firstn_O, app_nil_r, firstn_all2 by lia. reflexivity.
Qed.
