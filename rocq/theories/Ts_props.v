(** Transport stream properties (C20, C21, C23, C24, C47, C48). *)
From Coq Require Import ZifyNat.
From Verif Require Import Util Bits_spec Bits_lemmas TsTime_model TsTime_proofs Ts_model Ts_proofs Ts_proofs2 Ts_proofs3 Ts_proofs4 Ts_proofs5.
Local Open Scope Z_scope.
Local Ltac Zify.zify_post_hook ::= Z.div_mod_to_equations.

(** * C20: time stamps. *)
(** Reading the header that was written consumes exactly it and gives back, for every
    stamp, the time cut to the millisecond and taken modulo 2^33 ticks of 90 kHz. *)
Theorem C20_pes_stamps : forall r mk sid pts dts escr body rest, ofits pts -> ofits dts -> ofits escr -> 0 <= sid < 256 ->
  exists p, get_pes (bytes_bits (pes_header r mk sid pts dts escr body) ++ rest) = Some (p, rest) /\ p_sid p = sid
   /\ option_map stamp_time (p_pts p) = option_map (fun t => t / 10000 * 90 mod 2 ^ 33 * 1000 / 9) pts
   /\ option_map stamp_time (p_dts p) = option_map (fun t => t / 10000 * 90 mod 2 ^ 33 * 1000 / 9) dts
   /\ option_map escr_time (p_escr p) = option_map (fun t => t / 10000 * 90 mod 2 ^ 33 * 1000 / 9) escr.
Proof.
  intros r mk sid pts dts escr body rest H1 H2 H3 Hs. exists (read_back sid pts dts escr body).
  split; [apply get_pes_header; assumption|]. split; [apply Z.mod_small; lia|].
  unfold read_back. cbn [p_pts p_dts p_escr]. split; [|split].
  - destruct pts as [t|]; [|reflexivity]. cbn [option_map]. f_equal. apply stamp_time_of, H1.
  - destruct dts as [t|]; [|reflexivity]. cbn [option_map]. f_equal. apply stamp_time_of, H2.
  - destruct escr as [t|]; [|reflexivity]. cbn [option_map]. f_equal. apply escr_time_of, H3.
Qed.
Print Assumptions C20_pes_stamps.
(** below 2^33 ticks (26.5 hours) that is the time cut to the millisecond *)
Theorem C20_no_wrap : forall r mk sid t body rest, 0 <= t -> t / 10000 * 90 < 2 ^ 33 ->
  exists p s, get_pes (bytes_bits (pes_header r mk sid (Some t) None None body) ++ rest) = Some (p, rest) /\ p_pts p = Some s /\ stamp_time s = t / 10000 * 10000.
Proof.
  intros r mk sid t body rest H0 H1. exists (read_back sid (Some t) None None body), (stamp_of t).
  assert (fits t) by (split; lia).
  split; [apply get_pes_header; cbn; auto|]. split; [reflexivity|]. rewrite stamp_time_of by exact H0. apply no_wrap; assumption.
Qed.
Print Assumptions C20_no_wrap.
(** any 33-bit clock value is read as the exact time in 100 ns units, rounded down,
    although the code computes with doubles *)
Theorem C20_clock_exact : forall b, 0 <= b < 2 ^ 33 -> Time (b / 2 ^ 30) (b / 2 ^ 15 mod 2 ^ 15) (b mod 2 ^ 15) 0 = 1000 * b / 9.
Proof.
  intros b Hb. rewrite Time_conv by (try apply Z.mod_pos_bound; lia). unfold base_of. rewrite <- conv_base by exact Hb. f_equal. lia.
Qed.
Print Assumptions C20_clock_exact.
(** with a 27 MHz extension it is that, or one unit less, and less only when the time is a
    whole number of units *)
Theorem C20_pcr_near : forall b e, 0 <= b < 2 ^ 33 -> 0 <= e < 300 ->
  let t := Time (b / 2 ^ 30) (b / 2 ^ 15 mod 2 ^ 15) (b mod 2 ^ 15) e in let exact := 10 * (300 * b + e) / 27 in
  t = exact \/ (10 * (300 * b + e) mod 27 = 0 /\ t = exact - 1).
Proof.
  intros b e Hb He t exact. unfold t. rewrite Time_conv by (try apply Z.mod_pos_bound; lia).
  replace (base_of (b / 2 ^ 30) (b / 2 ^ 15 mod 2 ^ 15) (b mod 2 ^ 15)) with b by (unfold base_of; lia). apply conv_near. lia.
Qed.
Print Assumptions C20_pcr_near.
Theorem C20_pcr_exact_refuted : exists b e, 0 <= b < 2 ^ 33 /\ 0 <= e < 300 /\
  Time (b / 2 ^ 30) (b / 2 ^ 15 mod 2 ^ 15) (b mod 2 ^ 15) e = 10 * (300 * b + e) / 27 - 1.
Proof. exists 100003, 123. split; [lia|]. split; [lia|]. vm_compute. reflexivity. Qed.
Print Assumptions C20_pcr_exact_refuted.
Example C20_nonvacuous : fits 12345678901234 /\ option_map (fun x => option_map stamp_time (p_pts (fst x)))
  (get_pes (bytes_bits (pes_header 3 1 0xE0 (Some 36000123456) (Some 35999999999) None 100))) = Some (Some 36000120000).
Proof. split; [split; vm_compute; congruence|vm_compute; reflexivity]. Qed.

(** * C21: cutting data in transport packets. *)
Theorem C21_packets : forall pid data rai pcr cc, 0 <= pid < 8192 -> bytes data -> 0 <= cc < 256 -> ofits pcr ->
  (rai = true -> zlen data <> first_room rai pcr - 1) ->
  exists p1 l c, output_ts pid data rai pcr cc = Packets (p1 :: l) c
   /\ Forall (iso_packet pid) (p1 :: l) /\ concat_payloads (p1 :: l) = data
   /\ iso_pusi p1 = 1 /\ Forall (fun p => iso_pusi p = 0 /\ iso_rai p = 0 /\ iso_pcr_flag p = 0) l
   /\ iso_rai p1 = b2z rai /\ iso_pcr_flag p1 = b2z (present (eff_pcr rai pcr))
   /\ (forall t, eff_pcr rai pcr = Some t -> iso_pcr_base p1 = t / 10000 * 90 mod 2 ^ 33 /\ iso_pcr_ext p1 = 0)
   /\ (forall i p, nth_error (p1 :: l) i = Some p -> iso_cc p = (cc + Z.of_nat i) mod 16)
   /\ c = (cc + zlen (p1 :: l)) mod 256.
Proof.
  intros pid data rai pcr cc Hp Hb Hc Ht Hx. destruct (output_ts_spec pid data rai pcr cc Hp Hb Hc Ht Hx) as (p1 & l & c & E & I & D & U & A & F & V & R & C & CC & _).
  exists p1, l, c. tauto.
Qed.
Print Assumptions C21_packets.
(** the packets are then read back with the same content, one after the other *)
Theorem C21_read_back : forall pid data rai pcr cc p1 l c, 0 <= pid < 8192 -> bytes data -> 0 <= cc < 256 -> ofits pcr ->
  output_ts pid data rai pcr cc = Packets (p1 :: l) c ->
  forall fuel, (length (p1 :: l) <= fuel)%nat -> concat (map t_payload (get_packets fuel (concat (p1 :: l)))) = data.
Proof.
  intros pid data rai pcr cc p1 l c Hp Hb Hc Ht E fuel Hf.
  assert (Hx : rai = true -> zlen data <> first_room rai pcr - 1) by (intros -> Hx; rewrite output_ts_over in E by exact Hx; discriminate E).
  destruct (output_ts_spec pid data rai pcr cc Hp Hb Hc Ht Hx) as (p1' & l' & c' & E' & I & D & _ & _ & _ & _ & _ & _ & _ & S & _).
  rewrite E in E'. injection E' as <- <- <-.
  destruct (get_packets_ok pid (p1 :: l) fuel) as (ts & -> & F); [|exact Hf|].
  - rewrite Forall_forall in *. intros x Hin. split; [apply I|apply S]; exact Hin.
  - rewrite <- D. unfold concat_payloads. f_equal. clear -F. induction F as [|p t l0 ts (_ & _ & _ & _ & E) H IH]; [reflexivity|]. cbn [map]. congruence.
Qed.
Print Assumptions C21_read_back.
(** the sizes left out: one byte less than a first packet with indications holds, the copy
    reads one byte after the data *)
Theorem C21_overread_refuted : forall pid pcr cc data, zlen data = first_room true pcr - 1 -> output_ts pid data true pcr cc = OverRead.
Proof. intros. apply output_ts_over. assumption. Qed.
Print Assumptions C21_overread_refuted.
Example C21_nonvacuous : match output_ts 256 (repeat 7 400) true (Some 123450000) 14 with Packets l c => length l = 3%nat /\ c = 17 /\ map iso_cc l = [14; 15; 0] | OverRead => False end
  /\ output_ts 256 (repeat 7 181) true None 0 = OverRead /\ output_ts 256 (repeat 7 175) true (Some 0) 0 = OverRead.
Proof. vm_compute. repeat split. Qed.

(** * C23: PES_packet_length. *)
Theorem C23_length : forall u rest, u_ok u -> exists p r, get_pes (bytes_bits (u_bytes u) ++ rest) = Some (p, r)
   /\ (declares u -> p_len p = u_total u /\ zlen (u_bytes u) = 6 + p_len p) /\ (leaves_open u -> p_len p = 0).
Proof.
  intros u rest Hu. destruct Hu as (H1 & H2 & H3 & H4). exists (u_rb u). eexists. split; [|split].
  - rewrite u_bytes_eq, bytes_bits_app, <- app_assoc. unfold u_hdr, u_rb. apply get_pes_header; assumption.
  - intros D. pose proof (declares_bounded u D) as B. change (p_len (u_rb u)) with (u_len u mod 2 ^ 16). unfold bounded in B. rewrite Z.mod_small by lia.
    pose proof (bounded_total u B) as T. rewrite T. split; [|lia]. rewrite u_bytes_len in T. unfold u_total. unfold u_hdl, header_data_length in T. lia.
  - intros D. change (p_len (u_rb u)) with (u_len u mod 2 ^ 16). rewrite (open_unbounded u D). reflexivity.
Qed.
Print Assumptions C23_length.
(** between the two, the declared length is 65536 too small *)
Theorem C23_gap_refuted : forall u rest, u_ok u -> 65535 < u_total u -> zlen (u_body u) < 65535 ->
  exists p r, get_pes (bytes_bits (u_bytes u) ++ rest) = Some (p, r) /\ p_len p = u_total u - 65536.
Proof.
  intros u rest (H1 & H2 & H3 & H4) G1 G2. exists (u_rb u). eexists. split.
  - rewrite u_bytes_eq, bytes_bits_app, <- app_assoc. unfold u_hdr, u_rb. apply get_pes_header; assumption.
  - change (p_len (u_rb u)) with (u_len u mod 2 ^ 16). unfold u_len, packet_length, u_total, header_data_length, MAX_PES_SIZE in *.
    assert (0 <= b2z (present (u_pts u)) <= 1 /\ 0 <= b2z (present (u_dts u)) <= 1 /\ 0 <= b2z (present (u_escr u)) <= 1) by (destruct (u_pts u), (u_dts u), (u_escr u); cbn; lia).
    destruct (Z.eqb_spec (zlen (u_body u)) 0); [lia|]. destruct (Z.leb_spec 65535 (zlen (u_body u))); [lia|]. cbn [orb]. lia.
Qed.
Print Assumptions C23_gap_refuted.
Example C23_nonvacuous : declares (mkunit 0 0 0xE0 (Some 10000) None None [1; 2; 3]) /\
  let u := mkunit 0 0 0xE0 (Some 10000) None None (repeat 1 (Z.to_nat 65530)) in 65535 < u_total u /\ zlen (u_body u) < 65535.
Proof.
  split; [split; vm_compute; congruence|]. cbv zeta. unfold u_total. cbn [u_pts u_dts u_escr u_body present b2z]. unfold zlen. rewrite repeat_length. rewrite Z2Nat.id by lia. lia.
Qed.

(** * C24: PES units come back, in order, from any cut in packets. *)
Theorem C24_reassembly : forall sid us bs lus lbs,
  Forall2 (fun u l => u_ok u /\ leaves_open u /\ carries l (u_bytes u)) us lus ->
  Forall2 (fun u l => u_ok u /\ declares u /\ u_sid u = sid /\ carries l (u_bytes u)) bs lbs ->
  reassemble (concat (lus ++ lbs)) = map (fun u => Received (u_body u)) (us ++ bs).
Proof.
  intros sid us bs lus lbs H1 H2. apply (reassemble_ok sid).
  - clear H2. induction H1 as [|u l us0 ls (A & B & C) H IH]; constructor; [|exact IH]. split; [exact A|]. split; [apply open_unbounded; exact B|exact C].
  - clear H1. induction H2 as [|u l bs0 ls (A & B & D & C) H IH]; constructor; [|exact IH]. split; [exact A|]. split; [apply declares_bounded; exact B|]. split; assumption.
Qed.
Print Assumptions C24_reassembly.
(** writer and reader together *)
Theorem C24_write_read : forall pid sid us bs cc, 0 <= pid < 8192 -> Forall unit_fits (us ++ bs) ->
  Forall (fun x => leaves_open (fst (fst x))) us -> Forall (fun x => declares (fst (fst x)) /\ u_sid (fst (fst x)) = sid) bs -> 0 <= cc < 256 ->
  exists b, write_units pid cc (us ++ bs) = Some b /\ forall fuel, (length b <= fuel)%nat ->
    reassemble (get_packets fuel b) = map (fun x => Received (u_body (fst (fst x)))) (us ++ bs).
Proof. intros. apply (write_read pid sid); assumption. Qed.
Print Assumptions C24_write_read.
(** a unit of open length after one of declared length is never delivered *)
Theorem C24_mixed_refuted : forall u1 u2 l1 l2, u_ok u1 -> declares u1 -> carries l1 (u_bytes u1) -> u_ok u2 -> leaves_open u2 -> carries l2 (u_bytes u2) ->
  reassemble (l1 ++ l2) = [Received (u_body u1)].
Proof. intros. apply lost with (u2 := u2); try assumption; [apply declares_bounded|apply open_unbounded]; assumption. Qed.
Print Assumptions C24_mixed_refuted.
(** a packet without payload (PCR only) after a unit of declared length delivers it again *)
Theorem C24_duplicate_refuted : forall u l t, u_ok u -> declares u -> carries l (u_bytes u) -> t_tei t = 0 -> t_pusi t = 0 -> t_pay t = 0 ->
  reassemble (l ++ [t]) = [Received (u_body u); Received (u_body u)].
Proof. intros. apply duplicated; try assumption. apply declares_bounded. assumption. Qed.
Print Assumptions C24_duplicate_refuted.
Definition ex_unit1 := mkunit 0 0 0xE0 (Some 900000) None None (repeat 9 500).
Definition ex_unit2 := mkunit 0 0 0xE0 (Some 1300000) (Some 1000000) None [0; 0; 1; 0xE0; 5].
Example C24_nonvacuous : declares ex_unit1 /\ declares ex_unit2 /\ unit_fits (ex_unit1, true, Some 900000) /\
  match write_units 256 15 [(ex_unit1, true, Some 900000); (ex_unit2, false, None)] with
  | Some b => length b = 752%nat /\ reassemble (get_packets 10 b) = [Received (repeat 9 500); Received [0; 0; 1; 0xE0; 5]]
  | None => False end.
Proof.
  split; [split; vm_compute; congruence|]. split; [split; vm_compute; congruence|]. split.
  - unfold unit_fits. split; [vm_compute; intuition congruence|]. split; [|split; [vm_compute; intuition congruence|vm_compute; congruence]].
    apply Forall_forall. intros x Hx. apply repeat_spec in Hx. subst. unfold is_byte. lia.
  - vm_compute. split; reflexivity.
Qed.

(** * C47: reading any packet. *)
(** every 188-byte packet with a plain adaptation field is read as the standard says,
    whatever follows it *)
Theorem C47_read_packet : forall p rest, length p = 188%nat -> bytes p -> iso_sync p = 0x47 -> nth 1 p 0 / 128 = 0 -> iso_plain_af p ->
  iso_has_payload p = 1 \/ (iso_af p = 1 /\ nth 4 p 0 = 183) ->
  exists t, get_packet (p ++ rest) = Some (t, rest) /\ t_pusi t = iso_pusi p /\ t_pid t = iso_pid p /\ t_cc t = iso_cc p
   /\ t_rai t = iso_rai p /\ t_payload t = (if iso_has_payload p =? 1 then iso_payload p else [])
   /\ b2z (present (t_pcr t)) = iso_pcr_flag p
   /\ (forall a b c e, t_pcr t = Some (a, b, c, e) -> a * 2 ^ 30 + b * 2 ^ 15 + c = iso_pcr_base p /\ e = iso_pcr_ext p).
Proof.
  intros p rest L B S T A H. destruct (get_packet_ok p rest L B S T A H) as (t & E & _ & U & P & C & R & PL & _ & _ & _ & F & V).
  exists t. split; [exact E|]. split; [exact U|]. split; [exact P|]. split; [exact C|]. split; [exact R|]. split; [exact PL|]. split; [exact F|].
  intros a b c e Q. destruct (V a b c e Q) as (V1 & V2 & _). split; assumption.
Qed.
Print Assumptions C47_read_packet.
(** the PCR written with a unit is read back as its time cut to the millisecond *)
Theorem C47_pcr_round_trip : forall pid data t cc p1 l c rest, 0 <= pid < 8192 -> bytes data -> 0 <= cc < 256 -> 0 <= t -> t / 10000 * 90 < 2 ^ 33 ->
  output_ts pid data true (Some t) cc = Packets (p1 :: l) c ->
  exists x a b d e, get_packet (p1 ++ rest) = Some (x, rest) /\ t_pcr x = Some (a, b, d, e) /\ Time a b d e = t / 10000 * 10000.
Proof.
  intros pid data t cc p1 l c rest Hp Hb Hc H0 H1 E.
  assert (Hx : true = true -> zlen data <> first_room true (Some t) - 1) by (intros _ Hx; rewrite output_ts_over in E by exact Hx; discriminate E).
  assert (Ht : fits t) by (split; lia).
  destruct (output_ts_spec pid data true (Some t) cc Hp Hb Hc Ht Hx) as (p1' & l' & c' & E' & I & D & _ & _ & F & V & _ & _ & _ & S & _).
  rewrite E in E'. injection E' as <- <- <-. destruct (Forall_inv I) as (L & B & S1 & P & HP & T & HA).
  destruct (get_packet_ok p1 rest L B S1 T (Forall_inv S) (or_introl HP)) as (x & G & _ & _ & _ & _ & _ & _ & _ & _ & _ & PF & PV).
  rewrite F in PF. cbn [eff_pcr present b2z] in *. destruct (t_pcr x) as [[[[a b] d] e]|] eqn:EP; [|discriminate PF].
  exists x, a, b, d, e. split; [exact G|]. split; [exact EP|]. destruct (PV a b d e eq_refl) as (V1 & V2 & R1 & R2 & R3). destruct (V t eq_refl) as [W1 W2].
  rewrite Time_conv by assumption. rewrite W2 in V2. subst e. rewrite Z.add_0_r. replace (base_of a b d) with (t / 10000 * 90 mod 2 ^ 33) by (rewrite <- W1, <- V1; unfold base_of; ring).
  rewrite conv_base by (apply Z.mod_pos_bound; lia). rewrite Z.mul_comm. apply no_wrap; assumption.
Qed.
Print Assumptions C47_pcr_round_trip.
(** private data in the adaptation field: one byte too many is skipped, the payload is
    shifted and the next packet's sync byte is swallowed *)
Definition private_packet : list Z := [0x47; 0x41; 0x00; 0x30; 2; 2; 0] ++ repeat 5 180 ++ [6].
Theorem C47_private_data_refuted : exists p q, length p = 188%nat /\ bytes p /\ iso_packet 256 p /\ iso_packet 256 q /\
  exists t r, get_packet (p ++ q) = Some (t, r) /\ t_payload t <> iso_payload p /\ r = tl q.
Proof.
  exists private_packet, (put_packet 0 256 1 None (repeat 8 184)).
  assert (B : forall l, forallb is_byteb l = true -> bytes l).
  { intros l H. apply Forall_forall. intros x Hx. rewrite forallb_forall in H. specialize (H x Hx). unfold is_byteb in H. unfold is_byte. lia. }
  split; [reflexivity|]. split; [apply B; vm_compute; reflexivity|]. split.
  { split; [reflexivity|]. split; [apply B; vm_compute; reflexivity|]. vm_compute. intuition congruence. }
  split. { split; [reflexivity|]. split; [apply B; vm_compute; reflexivity|]. vm_compute. intuition congruence. }
  eexists _, _. split; [vm_compute; reflexivity|]. split; [vm_compute; congruence|vm_compute; reflexivity].
Qed.
Print Assumptions C47_private_data_refuted.
Example C47_nonvacuous : iso_plain_af (put_packet 1 256 3 (Some (mkadapt 20 1 (Some 5000000))) (repeat 1 163)) /\
  option_map (fun x => (t_rai (fst x), t_cc (fst x), length (t_payload (fst x)), snd x)) (get_packet (put_packet 1 256 3 (Some (mkadapt 20 1 (Some 5000000))) (repeat 1 163) ++ [1; 2]))
  = Some (1, 3, 163%nat, [1; 2]).
Proof. split; [unfold iso_plain_af; vm_compute; intuition congruence|vm_compute; reflexivity]. Qed.

(** * C48: no read outside the packet while reassembling. *)
Theorem C48_in_bounds : forall l s, (forall t, In t l -> t_pay t = 1 -> t_af t = 1 -> t_aflen t <= 183) -> ~ In OutOfBounds (snd (add_all s l)).
Proof. intros l s H. apply no_oob. exact H. Qed.
Print Assumptions C48_in_bounds.
(** but nothing in the packet reader ensures it: a damaged packet does it *)
Theorem C48_damaged_refuted : exists p t r, length p = 188%nat /\ bytes p /\ get_packet p = Some (t, r) /\ In OutOfBounds (snd (add ps0 t)).
Proof.
  exists ([0x47; 0x41; 0x00; 0x30; 200] ++ repeat 5 183). eexists _, _. split; [reflexivity|]. split.
  { apply Forall_forall. intros x Hx. apply in_app_or in Hx as [Hx|Hx]; [|apply repeat_spec in Hx; subst; unfold is_byte; lia].
    cbn [In] in Hx. unfold is_byte. lia. }
  split; [vm_compute; reflexivity|]. vm_compute. left. reflexivity.
Qed.
Print Assumptions C48_damaged_refuted.
