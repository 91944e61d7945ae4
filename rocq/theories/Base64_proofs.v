From Verif Require Import Util Base64_model Base64_spec.

(** ** finite facts about the tables and masks *)
Lemma encode_value_rfc d : 0 <= d < 64 -> encode_value d = Some (rfc_char d).
Proof.
  intros H.
  assert (E : (match encode_value d with Some c => c =? rfc_char d | None => false end) = true).
  { apply (sweep (fun d => match encode_value d with Some c => c =? rfc_char d | None => false end) 0 64);
      [vm_compute; reflexivity | exact H]. }
  destruct (encode_value d) as [c|]; [|discriminate]. f_equal. lia.
Qed.

Lemma mask_A b : is_byte b -> Z.shiftr (Z.land b 252) 2 = b / 4 /\ Z.shiftl (Z.land b 3) 4 = (b mod 4) * 16.
Proof.
  intros H.
  assert (E := byte_sweep (fun b => (Z.shiftr (Z.land b 252) 2 =? b / 4) && (Z.shiftl (Z.land b 3) 4 =? (b mod 4) * 16))
                 ltac:(vm_compute; reflexivity) b H). cbv beta in E. lia.
Qed.
Lemma mask_B a b : is_byte a -> is_byte b ->
  Z.lor ((a mod 4) * 16) (Z.shiftr (Z.land b 240) 4) = (a mod 4) * 16 + b / 16 /\ Z.shiftl (Z.land b 15) 2 = (b mod 16) * 4.
Proof.
  intros Ha Hb.
  assert (E := byte_sweep2 (fun a b => (Z.lor ((a mod 4) * 16) (Z.shiftr (Z.land b 240) 4) =? (a mod 4) * 16 + b / 16)
       && (Z.shiftl (Z.land b 15) 2 =? (b mod 16) * 4)) ltac:(vm_compute; reflexivity) a b Ha Hb).
  cbv beta in E. lia.
Qed.
Lemma mask_C b c : is_byte b -> is_byte c ->
  Z.lor ((b mod 16) * 4) (Z.shiftr (Z.land c 192) 6) = (b mod 16) * 4 + c / 64 /\ Z.shiftr (Z.land c 63) 0 = c mod 64.
Proof.
  intros Ha Hb.
  assert (E := byte_sweep2 (fun b c => (Z.lor ((b mod 16) * 4) (Z.shiftr (Z.land c 192) 6) =? (b mod 16) * 4 + c / 64)
       && (Z.shiftr (Z.land c 63) 0 =? c mod 64)) ltac:(vm_compute; reflexivity) b c Ha Hb).
  cbv beta in E. lia.
Qed.

(** ** digits of a group *)
Lemma digits_group a b c : is_byte a -> is_byte b -> is_byte c ->
  let n := a * 2^16 + b * 2^8 + c in
  digit n 3 = a / 4 /\ digit n 2 = (a mod 4) * 16 + b / 16 /\ digit n 1 = (b mod 16) * 4 + c / 64 /\ digit n 0 = c mod 64.
Proof.
  unfold is_byte, digit. intros Ha Hb Hc.
  change (64^3) with 262144; change (64^2) with 4096; change (64^1) with 64; change (64^0) with 1;
    change (2^16) with 65536; change (2^8) with 256.
  repeat split; dmlia.
Qed.

(** ** the encoder in any chunking *)
Lemma encode_block_app a b st :
  encode_block (a ++ b) st =
  match encode_block a st with None => None | Some (o1, s1) =>
  match encode_block b s1 with None => None | Some (o2, s2) => Some (o1 ++ o2, s2) end end.
Proof.
  revert st; induction a as [|x a IH]; intros st; cbn [encode_block app].
  - destruct (encode_block b st) as [[o2 s2]|]; reflexivity.
  - destruct (e_step st).
    + destruct (encode_value _); [|reflexivity]. rewrite IH.
      destruct (encode_block a _) as [[o1 s1]|]; [|reflexivity].
      destruct (encode_block b s1) as [[o2 s2]|]; reflexivity.
    + destruct (encode_value _); [|reflexivity]. rewrite IH.
      destruct (encode_block a _) as [[o1 s1]|]; [|reflexivity].
      destruct (encode_block b s1) as [[o2 s2]|]; reflexivity.
    + destruct (encode_value _); [|reflexivity]. destruct (encode_value _); [|reflexivity]. rewrite IH.
      destruct (encode_block a _) as [[o1 s1]|]; [|reflexivity].
      destruct (encode_block b s1) as [[o2 s2]|]; reflexivity.
Qed.

Lemma encode_calls_concat chunks : forall st,
  encode_calls chunks st = encode_calls [concat chunks] st.
Proof.
  induction chunks as [|c cs IH]; intros st.
  - cbn [encode_calls concat encode_block]. destruct (encode_blockend st); reflexivity.
  - cbn [encode_calls concat]. rewrite encode_block_app.
    destruct (encode_block c st) as [[o1 s1]|]; [|reflexivity].
    rewrite IH. cbn [encode_calls].
    destruct (encode_block (concat cs) s1) as [[o2 s2]|]; [|reflexivity].
    destruct (encode_blockend s2); [|reflexivity]. rewrite app_assoc. reflexivity.
Qed.

Lemma bytes3_ind (P : list Z -> Prop) :
  P [] -> (forall a, P [a]) -> (forall a b, P [a; b]) ->
  (forall a b c l, P l -> P (a :: b :: c :: l)) -> forall l, P l.
Proof.
  intros H0 H1 H2 H3. fix IH 1. intros [|a [|b [|c l]]].
  - exact H0. - apply H1. - apply H2. - apply H3. apply IH.
Qed.

Lemma encode_one l : bytes l -> forall r k, encode_calls [l] (mkE EA r k) = Some (rfc4648 l).
Proof.
  induction l as [|a|a b|a b c l IH] using bytes3_ind; intros HB r k.
  - reflexivity.
  - apply bytes_cons in HB as [Ha _].
    destruct (mask_A a Ha) as [A1 A2].
    destruct (digits_group a 0 0 Ha ltac:(unfold is_byte; lia) ltac:(unfold is_byte; lia)) as (D3 & D2 & _ & _).
    cbn [encode_calls encode_block e_step e_result e_count rfc4648].
    rewrite A1, A2. unfold is_byte in Ha.
    rewrite encode_value_rfc by dmlia. cbn [encode_blockend e_step e_result app].
    rewrite encode_value_rfc by dmlia.
    replace (a * 2^16) with (a * 2^16 + 0 * 2^8 + 0) by ring. rewrite D3, D2.
    replace (a mod 4 * 16 + 0 / 16) with (a mod 4 * 16) by (rewrite Z.div_0_l; lia). reflexivity.
  - apply bytes_cons in HB as [Ha HB]. apply bytes_cons in HB as [Hb _].
    destruct (mask_A a Ha) as [A1 A2]. destruct (mask_B a b Ha Hb) as [B1 B2].
    destruct (digits_group a b 0 Ha Hb ltac:(unfold is_byte; lia)) as (D3 & D2 & D1 & _).
    cbn [encode_calls encode_block e_step e_result e_count rfc4648].
    rewrite A1, A2. unfold is_byte in Ha, Hb.
    rewrite encode_value_rfc by dmlia. rewrite B1, B2. rewrite encode_value_rfc by dmlia.
    cbn [encode_blockend e_step e_result app].
    rewrite encode_value_rfc by dmlia.
    replace (a * 2^16 + b * 2^8) with (a * 2^16 + b * 2^8 + 0) by ring. rewrite D3, D2, D1.
    replace (b mod 16 * 4 + 0 / 64) with (b mod 16 * 4) by (rewrite Z.div_0_l; lia). reflexivity.
  - apply bytes_cons in HB as [Ha HB]. apply bytes_cons in HB as [Hb HB]. apply bytes_cons in HB as [Hc HB].
    destruct (mask_A a Ha) as [A1 A2]. destruct (mask_B a b Ha Hb) as [B1 B2]. destruct (mask_C b c Hb Hc) as [C1 C2].
    destruct (digits_group a b c Ha Hb Hc) as (D3 & D2 & D1 & D0).
    cbn [encode_calls encode_block e_step e_result e_count].
    rewrite A1, A2. unfold is_byte in Ha, Hb, Hc.
    rewrite encode_value_rfc by dmlia. rewrite B1, B2. rewrite encode_value_rfc by dmlia.
    rewrite C1, C2. rewrite encode_value_rfc by dmlia. rewrite encode_value_rfc by dmlia.
    match goal with |- context [encode_block l (mkE EA ?r' ?k')] => specialize (IH HB r' k') end.
    cbn [encode_calls] in IH.
    destruct (encode_block l _) as [[o s]|]; [|discriminate].
    destruct (encode_blockend s); [|discriminate]. injection IH as IH.
    cbn [rfc4648]. rewrite D3, D2, D1, D0, <- IH. reflexivity.
Qed.

Lemma encode_rfc chunks : Forall bytes chunks -> encode chunks = Some (rfc4648 (concat chunks)).
Proof.
  intros H. unfold encode. rewrite encode_calls_concat. apply encode_one. apply bytes_concat. exact H.
Qed.

(** ** text shape *)
Lemma rfc_length l : zlen (rfc4648 l) = 4 * ((zlen l + 2) / 3).
Proof.
  induction l as [|a|a b|a b c l IH] using bytes3_ind; try reflexivity.
  cbn [rfc4648]. rewrite zlen_app, IH, !zlen_cons.
  change (zlen (@nil Z)) with 0.
  replace (1 + (1 + (1 + zlen l)) + 2) with ((zlen l + 2) + 1 * 3) by ring.
  rewrite Z.div_add by lia. lia.
Qed.

Lemma rfc_char_alpha d : 0 <= d < 64 -> alphabet_char (rfc_char d).
Proof. intros H. unfold rfc_char, alphabet_char. repeat match goal with |- context [if ?b then _ else _] => destruct b eqn:? end; lia. Qed.

Lemma digit_range n k : 0 <= digit n k < 64.
Proof. unfold digit. apply Z.mod_pos_bound. lia. Qed.

Lemma rfc_shape l : exists body pad, rfc4648 l = body ++ pad /\ Forall alphabet_char body /\
  (pad = [] \/ pad = [61] \/ pad = [61; 61]).
Proof.
  induction l as [|a|a b|a b c l IH] using bytes3_ind.
  - exists [], []. repeat split; auto.
  - exists [rfc_char (digit (a * 2^16) 3); rfc_char (digit (a * 2^16) 2)], [61;61].
    repeat split; auto. repeat (apply Forall_cons; [apply rfc_char_alpha, digit_range|]); apply Forall_nil.
  - exists [rfc_char (digit (a * 2^16 + b * 2^8) 3); rfc_char (digit (a * 2^16 + b * 2^8) 2); rfc_char (digit (a * 2^16 + b * 2^8) 1)], [61].
    repeat split; auto. repeat (apply Forall_cons; [apply rfc_char_alpha, digit_range|]); apply Forall_nil.
  - destruct IH as (body & pad & E & Hb & Hp).
    exists ([rfc_char (digit (a * 2 ^ 16 + b * 2 ^ 8 + c) 3); rfc_char (digit (a * 2 ^ 16 + b * 2 ^ 8 + c) 2);
     rfc_char (digit (a * 2 ^ 16 + b * 2 ^ 8 + c) 1); rfc_char (digit (a * 2 ^ 16 + b * 2 ^ 8 + c) 0)] ++ body), pad.
    split; [cbn [rfc4648]; rewrite E, app_assoc; reflexivity|]. split; auto.
    apply Forall_app. split; auto. repeat (apply Forall_cons; [apply rfc_char_alpha, digit_range|]); apply Forall_nil.
Qed.

(** ** the decoder *)
Lemma decode_block_app j a b st :
  decode_block j (a ++ b) st =
  match decode_block j a st with None => None | Some (o1, s1) =>
  match decode_block j b s1 with None => None | Some (o2, s2) => Some (o1 ++ o2, s2) end end.
Proof.
  revert st; induction a as [|x a IH]; intros st; cbn [decode_block app].
  - destruct (decode_block j b st) as [[o2 s2]|]; reflexivity.
  - destruct (decode_value x) as [f|]; [|reflexivity].
    destruct (f <? 0); [apply IH|].
    destruct (d_step st); rewrite IH; try reflexivity;
      destruct (decode_block j a _) as [[o1 s1]|]; try reflexivity;
      destruct (decode_block j b s1) as [[o2 s2]|]; reflexivity.
Qed.

Lemma decode_calls_concat j chunks : forall st,
  decode_calls j chunks st = option_map fst (decode_block j (concat chunks) st).
Proof.
  induction chunks as [|c cs IH]; intros st; cbn [decode_calls concat].
  - reflexivity.
  - rewrite decode_block_app. destruct (decode_block j c st) as [[o1 s1]|]; [|reflexivity].
    rewrite IH. destruct (decode_block j (concat cs) s1) as [[o2 s2]|]; reflexivity.
Qed.

Lemma decode_value_char d : 0 <= d < 64 -> decode_value (rfc_char d) = Some d.
Proof.
  intros H.
  assert (E : (match decode_value (rfc_char d) with Some c => c =? d | None => false end) = true).
  { apply (sweep (fun d => match decode_value (rfc_char d) with Some c => c =? d | None => false end) 0 64);
      [vm_compute; reflexivity | exact H]. }
  destruct (decode_value (rfc_char d)) as [c|]; [|discriminate]. f_equal. lia.
Qed.

Lemma decode_value_nonalpha c : is_byte c -> alphabet_charb c = false -> c <> 123 ->
  decode_value c = Some (-1) \/ decode_value c = Some (-2).
Proof.
  intros Hc Hn H3.
  assert (E := byte_sweep (fun c => alphabet_charb c || (c =? 123) ||
     match decode_value c with Some (-1) => true | Some (-2) => true | _ => false end) ltac:(vm_compute; reflexivity) c Hc).
  cbv beta in E. rewrite Hn in E. replace (c =? 123) with false in E by lia. cbn [orb] in E.
  destruct (decode_value c) as [[|p|[p|[p|p|]|]]|]; try discriminate; auto.
Qed.

Lemma decode_value_alpha c : is_byte c -> alphabet_charb c = true -> exists v, decode_value c = Some v /\ 0 <= v < 64.
Proof.
  intros Hc Hn.
  assert (E := byte_sweep (fun c => negb (alphabet_charb c) ||
     match decode_value c with Some v => (0 <=? v) && (v <? 64) | _ => false end) ltac:(vm_compute; reflexivity) c Hc).
  cbv beta in E. rewrite Hn in E. cbn [negb orb] in E.
  destruct (decode_value c) as [v|]; [|discriminate]. exists v. split; [reflexivity|lia].
Qed.

Lemma decode_value_defined c : is_byte c -> (decode_value c = None <-> c = 123).
Proof.
  intros Hc. split.
  - intros HN. destruct (Z.eq_dec c 123) as [|Hne]; [assumption|exfalso].
    destruct (alphabet_charb c) eqn:HA.
    + destruct (decode_value_alpha c Hc HA) as (v & Hv & _). congruence.
    + destruct (decode_value_nonalpha c Hc HA Hne); congruence.
  - intros ->. vm_compute. reflexivity.
Qed.

(** skipping: the decoder sees only alphabet characters *)
Lemma decode_block_filter j code : forall st, bytes code -> ~ In 123 code ->
  decode_block j code st = decode_block j (filter alphabet_charb code) st.
Proof.
  induction code as [|c code IH]; intros st HB HN; [reflexivity|].
  apply bytes_cons in HB as [Hc HB].
  assert (HN' : ~ In 123 code) by (intros Hi; apply HN; right; exact Hi).
  assert (Hne : c <> 123) by (intros ->; apply HN; left; reflexivity).
  cbn [filter]. destruct (alphabet_charb c) eqn:HA.
  - cbn [decode_block]. destruct (decode_value c) as [f|]; [|reflexivity].
    destruct (f <? 0); [apply IH; auto|].
    destruct (d_step st); rewrite IH by auto; reflexivity.
  - cbn [decode_block].
    destruct (decode_value_nonalpha c Hc HA Hne) as [E|E]; rewrite E; cbn; apply IH; auto.
Qed.

Lemma dec_masks p f g h : 0 <= p < 64 -> 0 <= f < 64 -> 0 <= g < 64 -> 0 <= h < 64 ->
  Z.lor (Z.shiftl (Z.land p 63) 2 mod 256) (Z.shiftr (Z.land f 48) 4) = p * 4 + f / 16 /\
  Z.lor (Z.shiftl (Z.land f 15) 4 mod 256) (Z.shiftr (Z.land g 60) 2) = (f mod 16) * 16 + g / 4 /\
  Z.lor (Z.shiftl (Z.land g 3) 6 mod 256) (Z.land h 63) = (g mod 4) * 64 + h.
Proof.
  intros Hp Hf Hg Hh.
  assert (S2 : forall (P : Z -> Z -> bool), forallb (fun x => forallb (P x) (zseq 0 64)) (zseq 0 64) = true ->
     forall x y, 0 <= x < 64 -> 0 <= y < 64 -> P x y = true).
  { intros P H x y Hx Hy. pose proof (sweep _ 0 64 H x Hx) as H1. cbv beta in H1. exact (sweep _ 0 64 H1 y Hy). }
  assert (E1 := S2 (fun p f => Z.lor (Z.shiftl (Z.land p 63) 2 mod 256) (Z.shiftr (Z.land f 48) 4) =? p * 4 + f / 16)
     ltac:(vm_compute; reflexivity) p f Hp Hf).
  assert (E2 := S2 (fun f g => Z.lor (Z.shiftl (Z.land f 15) 4 mod 256) (Z.shiftr (Z.land g 60) 2) =? (f mod 16) * 16 + g / 4)
     ltac:(vm_compute; reflexivity) f g Hf Hg).
  assert (E3 := S2 (fun g h => Z.lor (Z.shiftl (Z.land g 3) 6 mod 256) (Z.land h 63) =? (g mod 4) * 64 + h)
     ltac:(vm_compute; reflexivity) g h Hg Hh).
  cbv beta in E1, E2, E3. lia.
Qed.

Lemma dec_step_a j d rest st : 0 <= d < 64 -> d_step st = Da ->
  decode_block j (rfc_char d :: rest) st = decode_block j rest (mkD Db (Z.shiftl (Z.land d 63) 2 mod 256)).
Proof.
  intros Hd Hs. cbn [decode_block]. rewrite decode_value_char by exact Hd.
  replace (d <? 0) with false by lia. rewrite Hs. reflexivity.
Qed.
Lemma dec_step_b j d rest st : 0 <= d < 64 -> d_step st = Db ->
  decode_block j (rfc_char d :: rest) st =
   match decode_block j rest (mkD Dc (Z.shiftl (Z.land d 15) 4 mod 256)) with
   | None => None | Some (o, s) => Some (Z.lor (d_plain st) (Z.shiftr (Z.land d 48) 4) :: o, s) end.
Proof.
  intros Hd Hs. cbn [decode_block]. rewrite decode_value_char by exact Hd.
  replace (d <? 0) with false by lia. rewrite Hs. reflexivity.
Qed.
Lemma dec_step_c j d rest st : 0 <= d < 64 -> d_step st = Dc ->
  decode_block j (rfc_char d :: rest) st =
   match decode_block j rest (mkD Dd (Z.shiftl (Z.land d 3) 6 mod 256)) with
   | None => None | Some (o, s) => Some (Z.lor (d_plain st) (Z.shiftr (Z.land d 60) 2) :: o, s) end.
Proof.
  intros Hd Hs. cbn [decode_block]. rewrite decode_value_char by exact Hd.
  replace (d <? 0) with false by lia. rewrite Hs. reflexivity.
Qed.
Lemma dec_step_d j d rest st : 0 <= d < 64 -> d_step st = Dd ->
  decode_block j (rfc_char d :: rest) st =
   match decode_block j rest (mkD Da j) with
   | None => None | Some (o, s) => Some (Z.lor (d_plain st) (Z.land d 63) :: o, s) end.
Proof.
  intros Hd Hs. cbn [decode_block]. rewrite decode_value_char by exact Hd.
  replace (d <? 0) with false by lia. rewrite Hs. reflexivity.
Qed.

Lemma dec_pad j rest st : decode_block j (61 :: rest) st = decode_block j rest st.
Proof. reflexivity. Qed.

Lemma decode_rfc j l : bytes l -> forall st, d_step st = Da ->
  option_map fst (decode_block j (rfc4648 l) st) = Some l.
Proof.
  induction l as [|a|a b|a b c l IH] using bytes3_ind; intros HB st Hs.
  - reflexivity.
  - apply bytes_cons in HB as [Ha _].
    destruct (digits_group a 0 0 Ha ltac:(unfold is_byte; lia) ltac:(unfold is_byte; lia)) as (D3 & D2 & _ & _).
    cbn [rfc4648]. replace (a * 2^16) with (a * 2^16 + 0 * 2^8 + 0) by ring.
    set (n := a * 2^16 + 0 * 2^8 + 0) in *.
    rewrite dec_step_a by (auto using digit_range).
    rewrite dec_step_b by (auto using digit_range).
    rewrite !dec_pad. cbn [decode_block option_map fst d_plain].
    destruct (dec_masks (digit n 3) (digit n 2) 0 0) as (M1 & _ & _); try apply digit_range; try lia.
    rewrite M1, D3, D2. unfold is_byte in Ha. do 2 f_equal. dmlia.
  - apply bytes_cons in HB as [Ha HB]. apply bytes_cons in HB as [Hb _].
    destruct (digits_group a b 0 Ha Hb ltac:(unfold is_byte; lia)) as (D3 & D2 & D1 & _).
    cbn [rfc4648]. replace (a * 2^16 + b * 2^8) with (a * 2^16 + b * 2^8 + 0) by ring.
    set (n := a * 2^16 + b * 2^8 + 0) in *.
    rewrite dec_step_a by (auto using digit_range).
    rewrite dec_step_b by (auto using digit_range).
    rewrite dec_step_c by (auto using digit_range).
    rewrite !dec_pad. cbn [decode_block option_map fst d_plain].
    destruct (dec_masks (digit n 3) (digit n 2) (digit n 1) 0) as (M1 & M2 & _); try apply digit_range; try lia.
    rewrite M1, M2, D3, D2, D1. unfold is_byte in Ha, Hb. f_equal. f_equal; [|f_equal]; dmlia.
  - apply bytes_cons in HB as [Ha HB]. apply bytes_cons in HB as [Hb HB]. apply bytes_cons in HB as [Hc HB].
    destruct (digits_group a b c Ha Hb Hc) as (D3 & D2 & D1 & D0).
    cbn [rfc4648 app]. set (n := a * 2^16 + b * 2^8 + c) in *.
    rewrite dec_step_a by (auto using digit_range).
    rewrite dec_step_b by (auto using digit_range).
    rewrite dec_step_c by (auto using digit_range).
    rewrite dec_step_d by (auto using digit_range).
    cbn [d_plain].
    destruct (dec_masks (digit n 3) (digit n 2) (digit n 1) (digit n 0)) as (M1 & M2 & M3); try apply digit_range.
    specialize (IH HB (mkD Da j) eq_refl).
    destruct (decode_block j (rfc4648 l) (mkD Da j)) as [[o s]|]; [|discriminate].
    cbn [option_map fst] in *. injection IH as ->.
    rewrite M1, M2, M3, D3, D2, D1, D0. unfold is_byte in Ha, Hb, Hc. f_equal.
    f_equal; [|f_equal; [|f_equal]]; dmlia.
Qed.

Lemma roundtrip j chunks cuts text :
  Forall bytes chunks -> encode chunks = Some text -> concat cuts = text ->
  decode j cuts = Some (concat chunks).
Proof.
  intros HB HE HC. rewrite encode_rfc in HE by exact HB. injection HE as HE.
  unfold decode. rewrite decode_calls_concat, HC, <- HE.
  apply decode_rfc; [apply bytes_concat; exact HB | reflexivity].
Qed.

(** junk anywhere in the text does not matter *)
Lemma decode_ignores_junk j cuts1 cuts2 :
  bytes (concat cuts1) -> bytes (concat cuts2) -> ~ In 123 (concat cuts1) -> ~ In 123 (concat cuts2) ->
  filter alphabet_charb (concat cuts1) = filter alphabet_charb (concat cuts2) ->
  decode j cuts1 = decode j cuts2.
Proof.
  intros B1 B2 N1 N2 E. unfold decode. rewrite !decode_calls_concat.
  rewrite decode_block_filter by assumption. rewrite E. rewrite <- decode_block_filter by assumption. reflexivity.
Qed.

Lemma decode_total j code : forall st, bytes code -> (decode_block j code st = None <-> In 123 code).
Proof.
  induction code as [|c code IH]; intros st HB.
  - cbn. split; [discriminate|contradiction].
  - apply bytes_cons in HB as [Hc HB]. cbn [decode_block In].
    destruct (decode_value c) as [f|] eqn:E.
    + assert (Hne : c <> 123) by (intros ->; vm_compute in E; discriminate).
      assert (HH : forall s' (k : list Z * dstate -> list Z * dstate), match decode_block j code s' with None => None | Some p => Some (k p) end = None <-> c = 123 \/ In 123 code).
      { intros s' k. specialize (IH s' HB). destruct (decode_block j code s'); [|tauto].
        split; [discriminate|]. intros [?|Hi]; [contradiction|]. apply IH in Hi. discriminate. }
      destruct (f <? 0); [specialize (IH st HB); tauto|].
      destruct (d_step st).
      * specialize (IH (mkD Db (Z.shiftl (Z.land f 63) 2 mod 256)) HB). tauto.
      * specialize (HH (mkD Dc (Z.shiftl (Z.land f 15) 4 mod 256)) (fun p => (Z.lor (d_plain st) (Z.shiftr (Z.land f 48) 4) :: fst p, snd p))).
        destruct (decode_block j code _) as [[o s]|]; exact HH.
      * specialize (HH (mkD Dd (Z.shiftl (Z.land f 3) 6 mod 256)) (fun p => (Z.lor (d_plain st) (Z.shiftr (Z.land f 60) 2) :: fst p, snd p))).
        destruct (decode_block j code _) as [[o s]|]; exact HH.
      * specialize (HH (mkD Da j) (fun p => (Z.lor (d_plain st) (Z.land f 63) :: fst p, snd p))).
        destruct (decode_block j code _) as [[o s]|]; exact HH.
    + apply decode_value_defined in E; [|exact Hc]. subst c. tauto.
Qed.
