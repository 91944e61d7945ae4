(** Proofs for Ts_model: packets written by output_ts. *)
From Coq Require Import ZifyNat.
From Verif Require Import Util Bits_spec Bits_lemmas TsTime_model TsTime_proofs Ts_model Ts_proofs.
Local Open Scope Z_scope.
Local Ltac Zify.zify_post_hook ::= Z.div_mod_to_equations.

Lemma field_bits_split v a b : field_bits v (a + b) = field_bits (v / 2 ^ Z.of_nat b) a ++ field_bits v b.
Proof.
  induction a as [|a IH]; [reflexivity|]. cbn [field_bits app plus]. rewrite IH. f_equal.
  rewrite Z.div_pow2_bits by lia. f_equal. lia.
Qed.
Lemma bits_val_fields_1 v n : bits_val (field_bits v n) = v mod 2 ^ Z.of_nat n.
Proof. apply bits_val_field. Qed.

Lemma hd_bytes pusi pid af cc : 0 <= pusi <= 1 -> 0 <= pid < 8192 -> 0 <= af <= 1 ->
  pack [(0x47, 8%nat); (0, 1%nat); (pusi, 1%nat); (0, 1%nat); (pid, 13%nat); (0, 2%nat); (af, 1%nat); (1, 1%nat); (cc, 4%nat)]
  = [0x47; pusi * 64 + pid / 256; pid mod 256; af * 32 + 16 + cc mod 16].
Proof.
  intros Hu Hp Ha. unfold pack. cbn [flat_map fst snd]. rewrite app_nil_r.
  change (field_bits pid 13) with (field_bits pid (5 + 8)). rewrite (field_bits_split pid 5 8).
  rewrite to_bytes_cons8 by reflexivity.
  replace (field_bits 0 1 ++ field_bits pusi 1 ++ field_bits 0 1 ++ (field_bits (pid / 2 ^ Z.of_nat 8) 5 ++ field_bits pid 8) ++ field_bits 0 2 ++ field_bits af 1 ++ field_bits 1 1 ++ field_bits cc 4)
    with ((field_bits 0 1 ++ field_bits pusi 1 ++ field_bits 0 1 ++ field_bits (pid / 2 ^ Z.of_nat 8) 5) ++ field_bits pid 8 ++ (field_bits 0 2 ++ field_bits af 1 ++ field_bits 1 1 ++ field_bits cc 4) ++ [])
    by (rewrite app_nil_r, <- !app_assoc; reflexivity).
  rewrite to_bytes_cons8 by reflexivity. rewrite to_bytes_cons8 by reflexivity. rewrite to_bytes_cons8 by reflexivity.
  change (to_bytes []) with (@nil Z). rewrite !bits_val_app, !bits_val_field, ?app_length, !field_bits_length.
  change (Z.of_nat 8) with 8. change (Z.of_nat 1) with 1. change (Z.of_nat 5) with 5. change (Z.of_nat 2) with 2. change (Z.of_nat 4) with 4.
  change (Z.of_nat (1 + (1 + 5))) with 7. change (Z.of_nat (1 + 5)) with 6. change (Z.of_nat (1 + (1 + 4))) with 6. change (Z.of_nat (1 + 4)) with 5.
  change (2 ^ 8) with 256. change (2 ^ 1) with 2. change (2 ^ 5) with 32. change (2 ^ 2) with 4. change (2 ^ 4) with 16. change (2 ^ 7) with 128. change (2 ^ 6) with 64.
  repeat (apply (f_equal2 cons); [lia|]). reflexivity.
Qed.

Lemma flags_byte rai pf fs : 0 <= rai <= 1 -> 0 <= pf <= 1 -> 
  pack ([(0, 1%nat); (rai, 1%nat); (0, 1%nat); (pf, 1%nat); (0, 1%nat); (0, 1%nat); (0, 1%nat); (0, 1%nat)] ++ fs)
  = (rai * 64 + pf * 16) :: pack fs.
Proof.
  intros Hr Hf. unfold pack. rewrite flat_map_app. rewrite to_bytes_cons8 by reflexivity. f_equal.
  assert (rai = 0 \/ rai = 1) as [-> | ->] by lia; assert (pf = 0 \/ pf = 1) as [-> | ->] by lia; reflexivity.
Qed.

(** first 33 bits of 5 bytes *)
Lemma base33 b0 b1 b2 b3 b4 r : is_byte b0 -> is_byte b1 -> is_byte b2 -> is_byte b3 -> is_byte b4 ->
  bits_val (firstn 33 (bytes_bits (b0 :: b1 :: b2 :: b3 :: b4 :: r)))
  = (((b0 * 256 + b1) * 256 + b2) * 256 + b3) * 2 + b4 / 128.
Proof.
  intros H0 H1 H2 H3 H4.
  assert (E : firstn 33 (bytes_bits (b0 :: b1 :: b2 :: b3 :: b4 :: r)) = field_bits b0 8 ++ field_bits b1 8 ++ field_bits b2 8 ++ field_bits b3 8 ++ field_bits (b4 / 2 ^ 7) 1).
  { unfold bytes_bits. cbn [flat_map]. unfold byte_bits. change (field_bits b4 8) with (field_bits b4 (1 + 7)). rewrite (field_bits_split b4 1 7). change (Z.of_nat 7) with 7. reflexivity. }
  rewrite E. rewrite !bits_val_app, !bits_val_field, ?app_length, !field_bits_length.
  change (8 + (8 + (8 + 1)))%nat with 25%nat. change (8 + (8 + 1))%nat with 17%nat. change (8 + 1)%nat with 9%nat. 
  unfold is_byte in *. change (Z.of_nat 25) with 25. change (Z.of_nat 17) with 17. change (Z.of_nat 9) with 9. change (Z.of_nat 8) with 8. change (Z.of_nat 1) with 1.
  change (2 ^ 25) with 33554432. change (2 ^ 17) with 131072. change (2 ^ 9) with 512. change (2 ^ 8) with 256. change (2 ^ 1) with 2. change (2 ^ 7) with 128. lia.
Qed.

Definition pcr_fields (t : Z) : list (Z * nat) := let c := ToMpegTime t in
  [(c32_30 c, 3%nat); (c29_15 c, 15%nat); (c14_0 c, 15%nat); (0, 6%nat); (cext c, 9%nat)].
Lemma pcr_pack t : fits t -> exists b0 b1 b2 b3 b4 b5, pack (pcr_fields t) = [b0; b1; b2; b3; b4; b5]
  /\ bytes [b0; b1; b2; b3; b4; b5] /\ (((b0 * 256 + b1) * 256 + b2) * 256 + b3) * 2 + b4 / 128 = t / 10000 * 90 mod 2 ^ 33
  /\ (b4 mod 2 * 256 + b5) = 0.
Proof.
  intros [H0 H1]. assert (T : total (map snd (pcr_fields t)) = (8 * 6)%nat) by reflexivity.
  pose proof (pack_length _ _ T) as L. pose proof (pack_bytes _ _ T) as B. pose proof (pack_bits _ _ T) as E.
  set (l := pack (pcr_fields t)) in *. clearbody l.
  destruct l as [|b0 [|b1 [|b2 [|b3 [|b4 [|b5 [|]]]]]]]; try discriminate L.
  exists b0, b1, b2, b3, b4, b5. split; [reflexivity|]. split; [exact B|].
  assert (is_byte b0 /\ is_byte b1 /\ is_byte b2 /\ is_byte b3 /\ is_byte b4 /\ is_byte b5) as (B0 & B1 & B2 & B3 & B4 & B5).
  { rewrite !bytes_cons in B. tauto. }
  destruct (ToMpegTime_fields t H0 H1) as (E1 & E2 & E3 & E4). assert (0 <= t / 10000 * 90) by (assert (0 <= t / 10000) by (apply Z.div_pos; lia); lia).
  split.
  - rewrite <- (base33 b0 b1 b2 b3 b4 [b5]) by assumption. rewrite E. unfold pcr_fields, fbits. cbn [flat_map fst snd].
    replace (firstn 33 _) with (field_bits (c32_30 (ToMpegTime t)) 3 ++ field_bits (c29_15 (ToMpegTime t)) 15 ++ field_bits (c14_0 (ToMpegTime t)) 15) by reflexivity.
    rewrite !bits_val_app, !bits_val_field, ?app_length, !field_bits_length. change (Z.of_nat 15) with 15. change (Z.of_nat 3) with 3.
    rewrite E1, E2, E3. rewrite <- fields_base by lia. unfold base_of. change (Z.of_nat (15 + 15)) with 30. change (2 ^ 30) with (2 ^ 15 * 2 ^ 15). ring.
  - assert (Q : skipn 39 (bytes_bits [b0; b1; b2; b3; b4; b5]) = field_bits b4 1 ++ field_bits b5 8) by reflexivity.
    rewrite E in Q. unfold pcr_fields, fbits in Q. cbn [flat_map fst snd] in Q.
    replace (skipn 39 _) with (field_bits (cext (ToMpegTime t)) 9) in Q by reflexivity.
    apply (f_equal bits_val) in Q. rewrite !bits_val_app, !bits_val_field, !field_bits_length in Q. change (Z.of_nat 9) with 9 in Q. rewrite E4 in Q.
    change (Z.of_nat 8) with 8 in Q. change (Z.of_nat 1) with 1 in Q. unfold is_byte in *. change (2 ^ 8) with 256 in *. change (2 ^ 1) with 2 in *. lia.
Qed.

(** what one packet is *)
Record is_ts (pid pusi cc : Z) (rai : Z) (pcr : option Z) (pay : list Z) (p : list Z) : Prop := {
  it_iso : iso_packet pid p;
  it_pusi : iso_pusi p = pusi;
  it_cc : iso_cc p = cc mod 16;
  it_rai : iso_rai p = rai;
  it_pcr : iso_pcr_flag p = b2z (present pcr);
  it_base : forall t, pcr = Some t -> iso_pcr_base p = t / 10000 * 90 mod 2 ^ 33;
  it_ext : forall t, pcr = Some t -> iso_pcr_ext p = 0;
  it_simple : iso_plain_af p;
  it_pay : iso_payload p = pay }.

Lemma plain_ts pid pusi cc pay : 0 <= pid < 8192 -> 0 <= pusi <= 1 -> bytes pay -> zlen pay = 184 ->
  is_ts pid pusi cc 0 None pay (put_packet pusi pid cc None pay).
Proof.
  intros Hp Hu Hb Hl. unfold put_packet. change (b2z (present (@None adapt))) with 0. rewrite hd_bytes by lia. cbn [app].
  split; try discriminate; unfold iso_packet, iso_sync, iso_pusi, iso_pid, iso_af, iso_has_payload, iso_cc, iso_rai, iso_pcr_flag, iso_payload, iso_plain_af, iso_af; cbn [nth].
  - unfold zlen in Hl. cbn [length]. split; [lia|]. split.
    + repeat (apply bytes_cons; split; [unfold is_byte; lia|]). exact Hb.
    + split; [reflexivity|]. lia.
  - lia.
  - lia.
  - destruct (Z.eqb_spec ((0 * 32 + 16 + cc mod 16) / 32 mod 2) 1); [lia|reflexivity].
  - destruct (Z.eqb_spec ((0 * 32 + 16 + cc mod 16) / 32 mod 2) 1); [lia|reflexivity].
  - lia.
  - destruct (Z.eqb_spec ((0 * 32 + 16 + cc mod 16) / 32 mod 2) 1); [lia|reflexivity].
Qed.

Lemma bytes_repeat0 n : bytes (repeat 0 n).
Proof. apply Forall_forall. intros x Hx. apply repeat_spec in Hx. subst. unfold is_byte. lia. Qed.

Lemma adapt_shape len rai pcr : 0 <= rai <= 1 -> (len = 0 \/ 1 + 6 * b2z (present pcr) <= len) -> len <= 183 -> (match pcr with None => True | Some t => fits t end) ->
  exists r, put_adapt (mkadapt len rai pcr) = len :: r /\ zlen r = len /\ bytes r /\
   (0 < len -> exists r', r = (rai * 64 + b2z (present pcr) * 16) :: r' /\
      forall t, pcr = Some t -> exists b0 b1 b2 b3 b4 b5 q, r' = b0 :: b1 :: b2 :: b3 :: b4 :: b5 :: q /\ (((b0 * 256 + b1) * 256 + b2) * 256 + b3) * 2 + b4 / 128 = t / 10000 * 90 mod 2 ^ 33 /\ b4 mod 2 * 256 + b5 = 0).
Proof.
  intros Hr Hl Hm Ht. unfold put_adapt. cbn [af_len af_rai af_pcr]. assert (0 <= len) by (destruct pcr; cbn in Hl; lia). rewrite Z.mod_small by lia.
  destruct (Z.eq_dec len 0) as [->|N].
  { exists []. cbn [Z.ltb Z.compare andb]. split; [reflexivity|]. split; [reflexivity|]. split; [constructor|lia]. }
  assert (L1 : 1 + 6 * b2z (present pcr) <= len) by lia. assert (0 < len) by lia.
  destruct (Z.ltb_spec 0 len); [|lia]. destruct (Z.leb_spec len 183); [|lia]. cbn [andb].
  rewrite flags_byte by (try destruct pcr; cbn; lia). cbn [app].
  destruct pcr as [t|].
  - lazymatch goal with |- context [pack ?x] => change (pack x) with (pack (pcr_fields t)) end.
    destruct (pcr_pack t Ht) as (b0 & b1 & b2 & b3 & b4 & b5 & E & B & V & V'). rewrite E. cbn [present b2z] in *.
    eexists. split; [reflexivity|]. split; [|split].
    + cbn [app]. rewrite !zlen_cons. unfold zlen. rewrite repeat_length. lia.
    + apply bytes_cons. split; [unfold is_byte; lia|]. apply bytes_app. split; [exact B|apply bytes_repeat0].
    + intros _. eexists. split; [reflexivity|]. intros t' [= <-]. exists b0, b1, b2, b3, b4, b5. eexists. split; [reflexivity|exact (conj V V')].
  - change (pack []) with (@nil Z). cbn [app present b2z] in *.
    eexists. split; [reflexivity|]. split; [|split].
    + rewrite !zlen_cons. unfold zlen. rewrite repeat_length. lia.
    + apply bytes_cons. split; [unfold is_byte; lia|]. apply bytes_repeat0.
    + intros _. eexists. split; [reflexivity|]. discriminate.
Qed.

Lemma adapt_ts pid pusi cc len rai pcr pay : 0 <= pid < 8192 -> 0 <= pusi <= 1 -> 0 <= rai <= 1 -> bytes pay -> len + zlen pay = 183 ->
  ((len = 0 /\ rai = 0 /\ pcr = None) \/ 1 + 6 * b2z (present pcr) <= len) -> (match pcr with None => True | Some t => fits t end) ->
  is_ts pid pusi cc rai pcr pay (put_packet pusi pid cc (Some (mkadapt len rai pcr)) pay).
Proof.
  intros Hp Hu Hr Hb Hl Hc Ht. unfold put_packet. change (b2z (present (Some (mkadapt len rai pcr)))) with 1. rewrite hd_bytes by lia.
  pose proof (zlen_nonneg pay) as Hn.
  destruct (adapt_shape len rai pcr Hr ltac:(destruct Hc as [[? _]|?]; auto) ltac:(lia) Ht) as (r & E & Lr & Br & Hr').
  rewrite E. cbn [app].
  assert (AF : (1 * 32 + 16 + cc mod 16) / 32 mod 2 =? 1 = true) by (apply Z.eqb_eq; lia).
  assert (0 <= len) by (rewrite <- Lr; apply zlen_nonneg).
  split; unfold iso_packet, iso_sync, iso_pusi, iso_pid, iso_af, iso_has_payload, iso_cc, iso_rai, iso_pcr_flag, iso_pcr_base, iso_pcr_ext, iso_plain_af, iso_payload, iso_af; cbn [nth]; rewrite ?AF; cbn [andb].
  - cbn [length]. rewrite app_length. unfold zlen in *. split; [lia|]. split.
    + do 5 (apply bytes_cons; split; [unfold is_byte; lia|]). apply bytes_app. tauto.
    + split; [reflexivity|]. lia.
  - lia.
  - lia.
  - destruct (Z.ltb_spec 0 len); [|destruct Hc as [(_ & ? & _)|Hc]; [lia|destruct pcr; cbn in Hc; lia]]. destruct (Hr' ltac:(lia)) as (r' & -> & _). cbn [app nth]. destruct pcr; cbn [present b2z]; lia.
  - destruct (Z.ltb_spec 0 len); [|destruct Hc as [(_ & _ & ->)|Hc]; [reflexivity|destruct pcr; cbn in Hc; lia]].
    destruct (Hr' ltac:(lia)) as (r' & -> & _). cbn [app nth]. destruct pcr; cbn [present b2z]; lia.
  - intros t ->. destruct Hc as [(_ & _ & Hc)|Hc]; [discriminate|]. cbn [present b2z] in Hc. destruct (Hr' ltac:(lia)) as (r' & -> & V).
    destruct (V t eq_refl) as (b0 & b1 & b2 & b3 & b4 & b5 & q & -> & V' & V''). cbn [app nth]. exact V'.
  - intros t ->. destruct Hc as [(_ & _ & Hc)|Hc]; [discriminate|]. cbn [present b2z] in Hc. destruct (Hr' ltac:(lia)) as (r' & -> & V).
    destruct (V t eq_refl) as (b0 & b1 & b2 & b3 & b4 & b5 & q & -> & V' & V''). cbn [app nth]. exact V''.
  - intros _. split; [lia|]. intros P. destruct (Hr' P) as (r' & -> & _). cbn [app nth]. destruct Hc as [(? & _)|Hc]; [lia|].
    destruct pcr; cbn [present b2z] in *; lia.
  - replace (4 + (1 + Z.to_nat len))%nat with (5 + length r)%nat by (unfold zlen in Lr; lia). cbn [plus skipn].
    rewrite skipn_app, skipn_all, Nat.sub_diag. reflexivity.
Qed.

(** a run of packets: payloads, counters *)
Fixpoint run (pid cc : Z) (ps : list (list Z)) (l : list (list Z)) : Prop :=
  match ps, l with
  | [], [] => True
  | pay :: ps', p :: l' => (is_ts pid 0 cc 0 None pay p /\ pay <> []) /\ run pid ((cc + 1) mod 256) ps' l'
  | _, _ => False
  end.
Lemma full_packets_run pid n : forall cc data, 0 <= pid < 8192 -> bytes data -> (184 * n <= length data)%nat ->
  exists ps l c r, full_packets n pid cc data = (l, c, r) /\ run pid cc ps l /\ data = concat ps ++ r /\ length ps = n /\ (length data = length r + 184 * n)%nat /\ (c - cc - Z.of_nat n) mod 256 = 0 /\ (0 <= cc < 256 -> 0 <= c < 256).
Proof.
  induction n as [|n IH]; intros cc data Hp Hb Hl; cbn [full_packets].
  - exists [], [], cc, data. split; [reflexivity|]. split; [exact I|]. split; [reflexivity|]. split; [reflexivity|]. split; [lia|]. split; [lia|tauto].
  - assert (Bs : bytes (firstn 184 data) /\ bytes (skipn 184 data)) by (apply bytes_app; rewrite firstn_skipn; exact Hb).
    destruct (IH ((cc + 1) mod 256) (skipn 184 data) Hp (proj2 Bs) ltac:(rewrite skipn_length; lia)) as (ps & l & c & r & E & R & D & Lp & Ld & C & C2).
    rewrite E. exists (firstn 184 data :: ps), (put_packet 0 pid cc None (firstn 184 data) :: l), c, r.
    split; [reflexivity|]. split; [|split; [|split; [|split; [|split]]]].
    + split; [|exact R]. split; [apply plain_ts; [assumption|lia|tauto|]; unfold zlen; rewrite firstn_length; lia|].
      intros E0. apply (f_equal (@length Z)) in E0. rewrite firstn_length in E0. cbn [length] in E0. lia.
    + cbn [concat]. rewrite <- app_assoc, <- D. symmetry. apply firstn_skipn.
    + cbn [length]. lia.
    + rewrite skipn_length in Ld. lia.
    + lia.
    + intros _. apply C2. lia.
Qed.

Lemma run_app pid : forall ps cc l ps2 l2 c, run pid cc ps l -> (c - cc - Z.of_nat (length ps)) mod 256 = 0 -> 0 <= c < 256 -> 0 <= cc < 256 -> run pid c ps2 l2 -> run pid cc (ps ++ ps2) (l ++ l2).
Proof.
  induction ps as [|q ps IH]; intros cc l ps2 l2 c R C Hc Hcc R2; destruct l as [|p l]; try contradiction.
  - cbn [length app] in *. replace cc with c by lia. exact R2.
  - destruct R as [R1 R]. cbn [app]. split; [exact R1|]. apply (IH _ l ps2 l2 c); try assumption; cbn [length] in C; lia.
Qed.
Lemma run_length pid : forall ps cc l, run pid cc ps l -> length ps = length l.
Proof. induction ps as [|q ps IH]; intros cc [|p l] R; try contradiction; [reflexivity|]. cbn [length]. f_equal. eapply IH. apply R. Qed.

Lemma bytes_firstn n l : bytes l -> bytes (firstn n l).
Proof. intros H. rewrite <- (firstn_skipn n l), bytes_app in H. apply H. Qed.
Lemma bytes_skipn n l : bytes l -> bytes (skipn n l).
Proof. intros H. rewrite <- (firstn_skipn n l), bytes_app in H. apply H. Qed.
Lemma zlen_firstn (n : Z) (l : list Z) : 0 <= n <= zlen l -> zlen (firstn (Z.to_nat n) l) = n.
Proof. unfold zlen. intros. rewrite firstn_length. lia. Qed.
Lemma zlen_skipn (n : Z) (l : list Z) : 0 <= n <= zlen l -> zlen (skipn (Z.to_nat n) l) = zlen l - n.
Proof. unfold zlen. intros. rewrite skipn_length. lia. Qed.

Lemma output_ts_run pid data rai pcr cc : 0 <= pid < 8192 -> bytes data -> 0 <= cc < 256 -> (match pcr with None => True | Some t => fits t end) ->
  (rai = true -> zlen data <> first_room rai pcr - 1) ->
  exists p1 l pay1 ps c, output_ts pid data rai pcr cc = Packets (p1 :: l) c
   /\ is_ts pid 1 cc (b2z rai) (eff_pcr rai pcr) pay1 p1 /\ run pid ((cc + 1) mod 256) ps l /\ data = pay1 ++ concat ps
   /\ c = (cc + 1 + Z.of_nat (length l)) mod 256 /\ (data <> [] -> pay1 <> []).
Proof.
  intros Hp Hb Hcc Ht Hx. unfold output_ts. fold (eff_pcr rai pcr).
  assert (EP : match eff_pcr rai pcr with None => True | Some t => fits t end) by (destruct rai; [exact Ht|exact I]).
  assert (EF : (if rai then (if present (eff_pcr rai pcr) then 176 else 182) else 184) = first_room rai pcr) by (destruct rai; reflexivity).
  rewrite EF. cbv zeta.
  set (pc := eff_pcr rai pcr) in *.
  set (len1 := if present pc then 7 else 1).
  assert (L1 : len1 = 1 + 6 * b2z (present pc)) by (unfold len1; destruct pc; reflexivity).
  assert (FR : rai = true -> first_room rai pcr = 183 - len1) by (intros ->; unfold first_room, len1, pc; cbn [eff_pcr]; destruct pcr; reflexivity).
  assert (FR2 : rai = false -> first_room rai pcr = 184) by (intros ->; reflexivity).
  assert (PC : rai = false -> pc = None) by (intros ->; reflexivity).
  assert (L2 : 1 <= len1 <= 7) by (unfold len1; destruct (present pc); lia).
  pose proof (zlen_nonneg data) as Hn.
  set (F := first_room rai pcr) in *. set (size := zlen data) in *.
  destruct (Z.ltb_spec size F) as [Hs|Hs].
  - (* one packet *)
    assert (Z.quot (size - F) 184 <= 0) by (apply Z.quot_le_upper_bound; lia).
    assert (Z.rem (size - F) 184 <= 0) by (apply Z.rem_nonpos; lia).
    rewrite orb_true_r. set (len := if F - size =? 1 then 0 else if rai then len1 + (F - size) else len1 + (F - 2 - size)).
    assert (EL : len + size = 183 /\ ((len = 0 /\ b2z rai = 0 /\ pc = None) \/ 1 + 6 * b2z (present pc) <= len)).
    { unfold len. destruct (Z.eqb_spec (F - size) 1) as [E|E].
      - destruct rai; [exfalso; apply Hx; [reflexivity|lia]|]. specialize (FR2 eq_refl). split; [lia|]. left. split; [reflexivity|]. split; [reflexivity|apply PC; reflexivity].
      - destruct rai; [specialize (FR eq_refl); lia|]. specialize (FR2 eq_refl). specialize (PC eq_refl).
        assert (len1 = 1) by (rewrite L1, PC; reflexivity). lia. }
    destruct EL as [EL1 EL2]. replace (184 - 1 - len) with size by lia.
    rewrite Z.ltb_irrefl. rewrite (proj2 (Z.ltb_ge 0 _)) by lia.
    replace (Z.to_nat (Z.quot (size - F) 184)) with 0%nat by lia. cbn [full_packets].
    rewrite firstn_all2 by (unfold size, zlen; lia).
    exists (put_packet 1 pid cc (Some (mkadapt len (b2z rai) pc)) data), [], data, [], ((cc + 1) mod 256).
    split; [reflexivity|]. split; [|split; [exact I|split; [cbn; symmetry; apply app_nil_r|split; [cbn [length]; f_equal; lia|tauto]]]].
    apply adapt_ts; try assumption; try lia. destruct rai; cbn; lia.
  - rewrite orb_false_r.
    assert (EB : (if rai then 184 - 1 - len1 else 184) = F) by (destruct rai; [specialize (FR eq_refl)|specialize (FR2 eq_refl)]; lia).
    rewrite EB. destruct (Z.ltb_spec size F); [lia|].
    assert (F0 : 0 <= F <= 184) by (unfold F, first_room; destruct rai, (present pcr); lia).
    set (n := Z.quot (size - F) 184) in *. set (last := Z.rem (size - F) 184) in *.
    assert (N : 0 <= n /\ 0 <= last < 184 /\ size - F = 184 * n + last).
    { unfold n, last. rewrite Z.quot_div_nonneg, Z.rem_mod_nonneg by lia. lia. }
    assert (Hrest : zlen (skipn (Z.to_nat F) data) = size - F) by (apply zlen_skipn; fold size; lia).
    destruct (full_packets_run pid (Z.to_nat n) ((cc + 1) mod 256) (skipn (Z.to_nat F) data) Hp (bytes_skipn _ _ Hb)) as (ps & l & c & r & E & R & D & Lp & Ld & C & C2).
    { unfold zlen in Hrest. lia. }
    rewrite E. specialize (C2 ltac:(lia)).
    assert (P1 : is_ts pid 1 cc (b2z rai) pc (firstn (Z.to_nat F) data) (put_packet 1 pid cc (if rai then Some (mkadapt len1 (b2z rai) pc) else None) (firstn (Z.to_nat F) data))).
    { destruct rai.
      - apply adapt_ts; try assumption; try (cbn; lia).
        + apply bytes_firstn; assumption.
        + rewrite zlen_firstn by (fold size; lia). specialize (FR eq_refl). lia.
        + right. lia.
      - rewrite (PC eq_refl). apply plain_ts; try assumption; try lia; [apply bytes_firstn; assumption|]. rewrite zlen_firstn by (fold size; lia). auto. }
    assert (P2 : data <> [] -> firstn (Z.to_nat F) data <> []).
    { intros _ E0. apply (f_equal (@length Z)) in E0. rewrite firstn_length in E0. cbn [length] in E0. assert (176 <= F) by (unfold F, first_room; destruct rai, (present pcr); lia). unfold size, zlen in *. lia. }
    assert (Dd : data = firstn (Z.to_nat F) data ++ concat ps ++ r) by (rewrite <- D; symmetry; apply firstn_skipn).
    assert (Hr : zlen r = last) by (unfold zlen in *; lia).
    destruct (Z.ltb_spec 0 last).
    + eexists _, _, _, (ps ++ [r]), _. split; [reflexivity|]. split; [exact P1|].
      assert (Br : bytes r) by (rewrite Dd, !bytes_app in Hb; tauto).
      split; [|split; [|split; [|exact P2]]].
      * apply run_app with (c := c); try lia; [exact R|]. split; [|exact I]. split; [|intros ->; unfold zlen in Hr; cbn [length] in Hr; lia].
        replace (firstn (Z.to_nat last) r) with r by (rewrite firstn_all2; [reflexivity|unfold zlen in Hr; lia]).
        apply adapt_ts; try assumption; try lia. destruct (Z.eq_dec last 183); [left; split; [lia|split; reflexivity]|right; change (1 + 6 * b2z (present (@None Z))) with 1; lia].
      * rewrite concat_app. cbn [concat]. rewrite app_nil_r. exact Dd.
      * rewrite app_length. pose proof (run_length _ _ _ _ R). cbn [length]. lia.
    + assert (r = []) by (destruct r; [reflexivity|rewrite zlen_cons in Hr; pose proof (zlen_nonneg r); lia]). subst r.
      eexists _, _, _, ps, _. split; [reflexivity|]. split; [exact P1|]. split; [exact R|]. split; [|split; [|exact P2]].
      * rewrite app_nil_r in Dd. exact Dd.
      * pose proof (run_length _ _ _ _ R). lia.
Qed.

Lemma run_facts pid : forall ps cc l, run pid cc ps l -> 0 <= cc < 256 ->
  Forall (iso_packet pid) l /\ Forall (fun p => iso_pusi p = 0 /\ iso_rai p = 0 /\ iso_pcr_flag p = 0) l /\ Forall iso_plain_af l /\ Forall (fun p => iso_payload p <> []) l /\ concat_payloads l = concat ps
  /\ forall i p, nth_error l i = Some p -> iso_cc p = (cc + Z.of_nat i) mod 16.
Proof.
  induction ps as [|q ps IH]; intros cc [|p l] R Hcc; try contradiction.
  - split; [constructor|]. split; [constructor|]. split; [constructor|]. split; [constructor|]. split; [reflexivity|]. intros i p H. destruct i; discriminate H.
  - destruct R as [R1 R]. destruct (IH _ _ R ltac:(lia)) as (A1 & A2 & A5 & A6 & A3 & A4). destruct R1 as [R1 R2]. destruct R1.
    split; [constructor; assumption|]. split; [constructor; [tauto|assumption]|]. split; [constructor; assumption|]. split; [constructor; [congruence|assumption]|]. split.
    + unfold concat_payloads in *. cbn [map concat]. congruence.
    + intros [|i] x H; cbn [nth_error] in H.
      * injection H as <-. rewrite it_cc0. f_equal. lia.
      * rewrite (A4 _ _ H). lia.
Qed.

Lemma output_ts_spec pid data rai pcr cc : 0 <= pid < 8192 -> bytes data -> 0 <= cc < 256 -> (match pcr with None => True | Some t => fits t end) ->
  (rai = true -> zlen data <> first_room rai pcr - 1) ->
  exists p1 l c, output_ts pid data rai pcr cc = Packets (p1 :: l) c
   /\ Forall (iso_packet pid) (p1 :: l) /\ concat_payloads (p1 :: l) = data
   /\ iso_pusi p1 = 1 /\ iso_rai p1 = b2z rai /\ iso_pcr_flag p1 = b2z (present (eff_pcr rai pcr))
   /\ (forall t, eff_pcr rai pcr = Some t -> iso_pcr_base p1 = t / 10000 * 90 mod 2 ^ 33 /\ iso_pcr_ext p1 = 0)
   /\ Forall (fun p => iso_pusi p = 0 /\ iso_rai p = 0 /\ iso_pcr_flag p = 0) l
   /\ (forall i p, nth_error (p1 :: l) i = Some p -> iso_cc p = (cc + Z.of_nat i) mod 16)
   /\ c = (cc + zlen (p1 :: l)) mod 256
   /\ Forall iso_plain_af (p1 :: l) /\ (data <> [] -> Forall (fun p => iso_payload p <> []) (p1 :: l)).
Proof.
  intros Hp Hb Hcc Ht Hx. destruct (output_ts_run pid data rai pcr cc Hp Hb Hcc Ht Hx) as (p1 & l & pay1 & ps & c & E & I & R & D & C & C').
  exists p1, l, c. split; [exact E|]. destruct (run_facts _ _ _ _ R ltac:(lia)) as (A1 & A2 & A5 & A6 & A3 & A4). destruct I.
  split; [constructor; assumption|]. split; [unfold concat_payloads in *; cbn [map concat]; congruence|].
  split; [assumption|]. split; [assumption|]. split; [assumption|]. split; [intros t Et; split; [apply it_base0|eapply it_ext0]; exact Et|]. split; [assumption|]. split; [|split; [|split; [constructor; assumption|intros Hd; constructor; [rewrite it_pay0; auto|assumption]]]].
  - intros [|i] p H; cbn [nth_error] in H; [injection H as <-; rewrite it_cc0; f_equal; lia|]. rewrite (A4 _ _ H). lia.
  - rewrite zlen_cons. unfold zlen. rewrite C. f_equal. lia.
Qed.

Lemma output_ts_over pid data pcr cc : zlen data = first_room true pcr - 1 -> output_ts pid data true pcr cc = OverRead.
Proof.
  intros H. unfold output_ts. unfold first_room in H. rewrite H. destruct pcr; reflexivity.
Qed.
