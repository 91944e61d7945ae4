(** Properties C22 (PAT/PMT sections) and C49 (filler packets). *)
From Coq Require Import ZifyNat.
From Verif Require Import Util Bits_spec Bits_lemmas TsTime_model Ts_model Ts_proofs Ts_proofs2 Ts_proofs3 Ts_proofs4 Ts_proofs5 Crc_model Crc_proofs Crc_proofs2 TsSect_model TsSect_proofs TsSect_proofs2 TsSect_proofs3.
Local Open Scope Z_scope.
Local Ltac Zify.zify_post_hook ::= Z.div_mod_to_equations.

(** * C22 *)
(** What is written: pointer field 0, the section laid out as ISO 13818-1 says, its CRC
    (big endian).  The section length it declares counts what follows it, CRC included
    (definition of [iso_section]).  [r2], [r3] are the reserved bits, left unset. *)
Theorem C22_pat_written : forall align r2 r3 programs, 9 + 4 * zlen programs < 4096 -> Forall (fun p => w16 (fst p) /\ pid_ok (snd p)) programs ->
  let sec := iso_section 0 8 1 ((r2 mod 4) * 64 + 1) 0 0 (flat_map (iso_program (r3 mod 8)) programs) in
  write_pat align r2 r3 programs = 0 :: sec ++ be32 (crc_spec sec).
Proof. intros align r2 r3 ps Hn H. apply write_pat_eq; [lia|exact H]. Qed.
Print Assumptions C22_pat_written.
Theorem C22_pmt_written : forall align r2 id pcr_pid streams, 13 + 5 * zlen streams < 4096 -> w16 id -> pid_ok pcr_pid ->
  Forall (fun s => is_byte (fst s) /\ pid_ok (snd s)) streams ->
  let sec := iso_section 2 8 id ((r2 mod 4) * 64 + 1) 0 0 (iso_pmt_body 0 0 pcr_pid [] (map (fun s => (fst s, snd s, [])) streams)) in
  write_pmt align r2 id pcr_pid streams = 0 :: sec ++ be32 (crc_spec sec).
Proof. intros align r2 id pcr ss Hn Hi Hp H. apply write_pmt_eq; try assumption; lia. Qed.
Print Assumptions C22_pmt_written.
(** the declared length, read off the bytes, is what follows it *)
Theorem C22_section_length : forall table flags id v f l body, 0 <= flags < 16 -> zlen body < 4087 ->
  let sec := iso_section table flags id v f l body in (nth 1 sec 0 * 256 + nth 2 sec 0) mod 4096 = zlen sec + 4 - 3.
Proof. intros table flags id v f l body Hf Hn sec. pose proof (zlen_nonneg body). unfold sec. rewrite zlen_section. cbn [iso_section be16 app nth]. lia. Qed.
Print Assumptions C22_section_length.

(** Reading: any PAT/PMT section of the standard (any flags, version, reserved bits,
    descriptors), cut in packets anywhere after its header and before its declared length,
    is waited for and then gives its programs or streams; the CRC the reader computes is
    that of the section. *)
Theorem C22_pat_read : forall align flags id v f l r programs c old ts, 9 + 4 * zlen programs < 4096 ->
  0 <= flags < 16 -> w16 id -> is_byte v -> is_byte f -> is_byte l -> 0 <= r < 8 -> 0 <= c < 2 ^ 32 ->
  Forall (fun p => w16 (fst p) /\ pid_ok (snd p)) programs ->
  let sec := iso_section 0 flags id v f l (flat_map (iso_program r) programs) in
  carries ts (0 :: sec ++ be32 c) ->
  (forall i, (0 < i < length ts)%nat -> 9 <= zlen (concat (map t_payload (firstn i ts))) < 9 + 4 * zlen programs) ->
  psi_feed align 0 get_pat old ts = repeat Waiting (length ts - 1) ++ [Table (programs, c) (crc_spec sec)].
Proof.
  intros align flags id v f l r ps c old ts Hn Hf Hi Hv Hfi Hl Hr Hc H sec C W.
  assert (B0 : is_byte 0) by (unfold is_byte; lia).
  eapply feed_section; try eassumption.
  - apply programs_bytes; assumption.
  - rewrite zlen_programs. lia.
  - rewrite <- (app_nil_r (be32 c)). apply get_pat_ok; try assumption. lia.
  - intros i Hi'. rewrite zlen_programs. specialize (W i Hi'). lia.
Qed.
Print Assumptions C22_pat_read.
Theorem C22_pmt_read : forall align flags id v f l r1 r2 pcr info streams c old ts,
  0 <= flags < 16 -> w16 id -> is_byte v -> is_byte f -> is_byte l -> 0 <= r1 < 8 -> 0 <= r2 < 16 -> 0 <= c < 2 ^ 32 ->
  pid_ok pcr -> descriptors_ok info -> Forall stream_ok streams ->
  let body := iso_pmt_body r1 r2 pcr info streams in let sec := iso_section 2 flags id v f l body in
  9 + zlen body < 4096 -> carries ts (0 :: sec ++ be32 c) ->
  (forall i, (0 < i < length ts)%nat -> 9 <= zlen (concat (map t_payload (firstn i ts))) < 9 + zlen body) ->
  psi_feed align 2 get_pmt old ts = repeat Waiting (length ts - 1) ++ [Table (mkpmt id pcr info streams c) (crc_spec sec)].
Proof.
  intros align flags id v f l r1 r2 pcr info ss c old ts Hf Hi Hv Hfi Hl Hr1 Hr2 Hc Hp Hinfo Hss body sec Hn C W.
  assert (B2 : is_byte 2) by (unfold is_byte; lia).
  assert (DB : forall ds, Forall (fun d => is_byte (fst d) /\ bytes (snd d) /\ zlen (snd d) < 256) ds -> bytes (iso_descriptors ds)).
  { induction 1 as [|[t d] ds (A1 & A2 & A3) H IH]; [constructor|]. cbn [fst snd] in *. change (iso_descriptors ((t, d) :: ds)) with (t :: zlen d :: d ++ iso_descriptors ds).
    pose proof (zlen_nonneg d). apply bytes_cons; split; [exact A1|]. apply bytes_cons; split; [unfold is_byte; lia|]. apply bytes_app; split; assumption. }
  eapply feed_section; try eassumption.
  - unfold iso_pmt_body, pid_ok, descriptors_ok in *. pose proof (zlen_nonneg (iso_descriptors info)).
    apply bytes_app; split; [apply be16_bytes; unfold w16; lia|]. apply bytes_app; split; [apply be16_bytes; unfold w16; lia|]. apply bytes_app; split; [apply DB; tauto|].
    clear -Hss Hr1 Hr2 DB. induction Hss as [|[[t p] ds] ss (A1 & A2 & A3 & A4) H IH]; [constructor|]. cbn [flat_map]. apply bytes_app; split; [|exact IH].
    unfold iso_stream, pid_ok in *. pose proof (zlen_nonneg (iso_descriptors ds)). apply bytes_cons; split; [exact A1|]. apply bytes_app; split; [apply be16_bytes; unfold w16; lia|].
    apply bytes_app; split; [apply be16_bytes; unfold w16; lia|]. apply DB. exact A3.
  - fold body. lia.
  - rewrite <- (app_nil_r (be32 c)). apply get_pmt_ok; try assumption. fold body. lia.
  - fold body. intros i Hi'. specialize (W i Hi'). lia.
Qed.
Print Assumptions C22_pmt_read.
(** The library's own tables that fit in one packet, written and read back: same programs,
    same streams, and the CRC read is the CRC computed. *)
Theorem C22_pat_round_trip : forall align align' r2 r3 programs cc old, 13 + 4 * zlen programs <= 184 -> 0 <= cc < 256 ->
  Forall (fun p => w16 (fst p) /\ pid_ok (snd p)) programs ->
  exists packet cc' crc, output_ts 0 (write_pat align r2 r3 programs) false None cc = Packets [packet] cc'
   /\ forall fuel, (1 <= fuel)%nat -> psi_feed align' 0 get_pat old (get_packets fuel packet) = [Table (programs, crc) crc].
Proof.
  intros align align' r2 r3 ps cc old Hn Hc H.
  destruct (write_pat_eq align r2 r3 ps ltac:(lia) H) as [E B]. set (sec := iso_section _ _ _ _ _ _ _) in *.
  assert (L : zlen (0 :: sec ++ be32 (crc_spec sec)) = 13 + 4 * zlen ps).
  { rewrite zlen_cons, zlen_app. unfold sec at 1. rewrite zlen_section, zlen_programs. change (zlen (be32 (crc_spec sec))) with 4. lia. }
  rewrite E. destruct (write_feed align' get_pat 0 cc (0 :: sec ++ be32 (crc_spec sec)) (Table (ps, crc_spec sec) (crc_spec sec))) as (b & c & E1 & F).
  - lia.
  - exact Hc.
  - apply bytes_cons; split; [unfold is_byte; lia|]. apply bytes_app; split; [exact B|apply be32_bytes].
  - discriminate.
  - lia.
  - exists b, c, (crc_spec sec). split; [exact E1|]. intros fuel Hf. apply F; [exact Hf|].
    rewrite <- (app_nil_r (be32 _)). pose proof (zlen_nonneg ps).
    assert (W : w32 (crc_spec sec)) by (apply crc_bits_w; unfold w32; lia).
    apply process_table with (r := bytes_bits []); try (unfold is_byte; lia); try (unfold w16; lia).
    + apply programs_bytes; [lia|exact H].
    + rewrite zlen_programs. lia.
    + unfold sec at 1. apply get_pat_ok; try (unfold is_byte; lia); try (unfold w16; lia); try assumption.
Qed.
Print Assumptions C22_pat_round_trip.
Theorem C22_pmt_round_trip : forall align align' r2 id pcr_pid streams cc pid old, 17 + 5 * zlen streams <= 184 -> 0 <= cc < 256 -> pid_ok pid ->
  w16 id -> pid_ok pcr_pid -> Forall (fun s => is_byte (fst s) /\ pid_ok (snd s)) streams ->
  exists packet cc' crc, output_ts pid (write_pmt align r2 id pcr_pid streams) false None cc = Packets [packet] cc'
   /\ forall fuel, (1 <= fuel)%nat -> psi_feed align' 2 get_pmt old (get_packets fuel packet) =
        [Table (mkpmt id pcr_pid [] (map (fun s => (fst s, snd s, [])) streams) crc) crc].
Proof.
  intros align align' r2 id pcr ss cc pid old Hn Hc Hpid Hi Hp H.
  destruct (write_pmt_eq align r2 id pcr ss ltac:(lia) Hi Hp H) as [E B]. set (sec := iso_section _ _ _ _ _ _ _) in *.
  assert (LB : zlen (iso_pmt_body 0 0 pcr [] (map (fun s => (fst s, snd s, [])) ss)) = 4 + 5 * zlen ss).
  { rewrite zlen_pmt_body, zlen_streams. change (zlen (iso_descriptors [])) with 0. lia. }
  assert (L : zlen (0 :: sec ++ be32 (crc_spec sec)) = 17 + 5 * zlen ss).
  { rewrite zlen_cons, zlen_app. unfold sec at 1. rewrite zlen_section, LB. change (zlen (be32 (crc_spec sec))) with 4. lia. }
  rewrite E. destruct (write_feed align' get_pmt pid cc (0 :: sec ++ be32 (crc_spec sec)) (Table (mkpmt id pcr [] (map (fun s => (fst s, snd s, [])) ss) (crc_spec sec)) (crc_spec sec))) as (b & c & E1 & F).
  - exact Hpid.
  - exact Hc.
  - apply bytes_cons; split; [unfold is_byte; lia|]. apply bytes_app; split; [exact B|apply be32_bytes].
  - discriminate.
  - lia.
  - exists b, c, (crc_spec sec). split; [exact E1|]. intros fuel Hf. apply F; [exact Hf|].
    rewrite <- (app_nil_r (be32 _)). pose proof (zlen_nonneg ss).
    assert (W : w32 (crc_spec sec)) by (apply crc_bits_w; unfold w32; lia).
    assert (B2 : is_byte 2) by (unfold is_byte; lia).
    apply process_table with (r := bytes_bits []); try (unfold is_byte; lia); try assumption; try lia.
    + unfold iso_pmt_body, pid_ok in *. apply bytes_app; split; [apply be16_bytes; unfold w16; lia|]. apply bytes_app; split; [apply be16_bytes; unfold w16; cbn; lia|]. apply streams_bytes. exact H.
    + unfold sec at 1. apply get_pmt_ok; try assumption; try lia.
      * split; [constructor|cbn; lia].
      * clear -H. induction H as [|[a b] l [A1 A2] H IH]; constructor; [|exact IH]. cbn [fst snd] in *. split; [exact A1|]. split; [exact A2|]. split; [constructor|cbn; lia].
Qed.
Print Assumptions C22_pmt_round_trip.
(** Refuted: a section whose last 1 to 4 bytes come with a later packet.  The reader then
    compares its declared length with bytes that include the four before it, reads past
    them and throws. *)
Theorem C22_split_tail_refuted : forall align align' r2 r3 programs k, 9 + 4 * zlen programs < 4096 -> Forall (fun p => w16 (fst p) /\ pid_ok (snd p)) programs ->
  9 + 4 * zlen programs <= Z.of_nat k < 13 + 4 * zlen programs ->
  psi_process align' 0 get_pat (firstn k (write_pat align r2 r3 programs)) = EndOfDataThrown.
Proof.
  intros align align' r2 r3 ps k Hn H Hk. destruct (write_pat_eq align r2 r3 ps ltac:(lia) H) as [-> B]. set (sec := iso_section _ _ _ _ _ _ _) in *.
  pose proof (zlen_nonneg ps). assert (W : w32 (crc_spec sec)) by (apply crc_bits_w; unfold w32; lia).
  apply process_gap with (x := (ps, crc_spec sec)); try (unfold is_byte; lia); try (unfold w16; lia).
  - rewrite zlen_programs. lia.
  - apply stable_pat.
  - rewrite <- (app_nil_r (be32 _)). unfold sec at 1. apply get_pat_ok; try (unfold is_byte; lia); try (unfold w16; lia); try assumption.
  - rewrite zlen_programs. lia.
Qed.
Print Assumptions C22_split_tail_refuted.
(** so a PAT of 43 programs, cut by the library's own packetiser, cannot be read *)
Theorem C22_43_programs_refuted : exists programs, Forall (fun p => w16 (fst p) /\ pid_ok (snd p)) programs /\
  match output_ts 0 (write_pat 0 3 7 programs) false None 0 with
  | Packets l _ => hd_error (psi_feed 0 0 get_pat [] (get_packets 2 (concat l))) = Some EndOfDataThrown
  | OverRead => False
  end.
Proof.
  exists (map (fun i => (Z.of_nat i + 1, Z.of_nat i + 100)) (seq 0 43)). split.
  - apply Forall_forall. intros x Hx. apply in_map_iff in Hx as (i & <- & Hi). apply in_seq in Hi. cbn [fst snd]. unfold w16, pid_ok. lia.
  - vm_compute. reflexivity.
Qed.
Print Assumptions C22_43_programs_refuted.
(** Refuted: the CRC is not checked (an assertion only): a table with a wrong CRC is taken. *)
Theorem C22_bad_crc_refuted : forall align r programs c, 9 + 4 * zlen programs < 4096 -> 0 <= r < 8 -> 0 <= c < 2 ^ 32 -> Forall (fun p => w16 (fst p) /\ pid_ok (snd p)) programs ->
  psi_process align 0 get_pat (0 :: iso_section 0 8 1 193 0 0 (flat_map (iso_program r) programs) ++ be32 c)
  = Table (programs, c) (crc_spec (iso_section 0 8 1 193 0 0 (flat_map (iso_program r) programs))).
Proof.
  intros align r ps c Hn Hr Hc H. pose proof (zlen_nonneg ps). rewrite <- (app_nil_r (be32 c)).
  apply process_table with (r := bytes_bits []); try (unfold is_byte; lia); try (unfold w16; lia).
  - apply programs_bytes; [lia|exact H].
  - rewrite zlen_programs. lia.
  - apply get_pat_ok; try (unfold is_byte; lia); try (unfold w16; lia); try assumption.
Qed.
Print Assumptions C22_bad_crc_refuted.
(** Looking a PID up gives the type of the first stream declared with it. *)
Theorem C22_type_lookup : forall pid streams t, elementary_type pid streams = Some t <->
  exists l1 ds l2, streams = l1 ++ (t, pid, ds) :: l2 /\ Forall (fun s => snd (fst s) <> pid) l1.
Proof.
  intros pid streams t. induction streams as [|[[t0 p0] ds0] l IH].
  - split; [discriminate|]. intros (l1 & ds & l2 & E & _). destruct l1; discriminate E.
  - cbn [elementary_type]. destruct (Z.eqb_spec p0 pid) as [->|N].
    + split.
      * intros E. injection E as ->. exists [], ds0, l. split; [reflexivity|constructor].
      * intros (l1 & ds & l2 & E & F). destruct l1 as [|x l1]; [injection E as -> _ _; reflexivity|]. injection E as <- _. pose proof (Forall_inv F) as X. cbn in X. contradiction.
    + rewrite IH. split.
      * intros (l1 & ds & l2 & -> & F). exists ((t0, p0, ds0) :: l1), ds, l2. split; [reflexivity|]. constructor; assumption.
      * intros (l1 & ds & l2 & E & F). destruct l1 as [|x l1]; [injection E as _ E _ _; contradiction|]. injection E as _ ->. exists l1, ds, l2. split; [reflexivity|exact (Forall_inv_tail F)].
Qed.
Print Assumptions C22_type_lookup.
(** Refuted: a stream declared as H.264 is not recognised as video. *)
Theorem C22_h264_refuted : forall pid ds rest, exists t, elementary_type pid ((0x1b, pid, ds) :: rest) = Some t /\ is_video_type t = false.
Proof. intros. exists 0x1b. cbn [elementary_type]. rewrite Z.eqb_refl. split; reflexivity. Qed.
Print Assumptions C22_h264_refuted.
Example C22_nonvacuous :
  let streams := [(0x1b, 256, [(5, [72; 68])]); (0x0f, 257, [])] in
  Forall stream_ok streams /\ descriptors_ok [(9, [1; 2; 3])] /\
  psi_process 0 2 get_pmt (0 :: iso_section 2 11 1 193 0 0 (iso_pmt_body 7 15 256 [(9, [1; 2; 3])] streams) ++ be32 7)
  = Table (mkpmt 1 256 [(9, [1; 2; 3])] streams 7) (crc_spec (iso_section 2 11 1 193 0 0 (iso_pmt_body 7 15 256 [(9, [1; 2; 3])] streams))).
Proof.
  cbv zeta. split; [|split; [|vm_compute; reflexivity]].
  - repeat constructor; cbn; lia.
  - split; [repeat constructor; cbn; lia|cbn; lia].
Qed.

(** * C49: filler packets. *)
(** They bring the counter to a multiple of 16 by valid packets of the PID with successive
    counters and no data. *)
Theorem C49_fill : forall pid cc, 0 <= pid < 8192 -> 0 <= cc < 256 ->
  exists l c, fill_pid pid cc = Some (l, c) /\ c mod 16 = 0 /\ zlen l < 16 /\ c = (cc + zlen l) mod 256 /\
    forall i p, nth_error l i = Some p -> iso_packet pid p /\ iso_cc p = (cc + Z.of_nat i) mod 16 /\ iso_pusi p = 0 /\ iso_payload p = [].
Proof.
  intros pid cc Hp Hc. destruct (fill_ok pid cc Hp Hc) as (l & c & E & Ec & Em & L & F). exists l, c.
  split; [exact E|]. split; [exact Em|]. split; [exact L|]. split; [exact Ec|]. intros i p H. destruct (F i p H). auto.
Qed.
Print Assumptions C49_fill.
(** Refuted: they are announced as carrying payload, and each of them makes the reader
    deliver a preceding unit of declared length again. *)
Theorem C49_repeats_refuted : forall pid cc u l fuel, 0 <= pid < 8192 -> 0 <= cc < 256 -> u_ok u -> declares u -> carries l (u_bytes u) ->
  exists fills c, fill_pid pid cc = Some (fills, c) /\
    ((length fills <= fuel)%nat -> reassemble (l ++ get_packets fuel (concat fills)) = repeat (Received (u_body u)) (S (length fills))).
Proof.
  intros pid cc u l fuel Hp Hc U D C. destruct (fill_ok pid cc Hp Hc) as (fs & c & E & _ & _ & _ & F). exists fs, c. split; [exact E|]. intros Hf.
  assert (A : forall p, In p fs -> readable pid p /\ iso_pusi p = 0 /\ iso_payload p = []).
  { intros p Hin. apply In_nth_error in Hin as [i Hi]. destruct (F i p Hi). split; [split; assumption|split; assumption]. }
  destruct (get_packets_ok pid fs fuel) as (ts & -> & G); [apply Forall_forall; intros p Hin; apply A; exact Hin|exact Hf|].
  assert (T : Forall filler ts /\ length ts = length fs).
  { clear -G A. induction G as [|p t fs ts (R1 & R2 & R3 & R4 & R5) G IH]; [split; constructor|].
    destruct IH as [I1 I2]; [intros q Hq; apply A; right; exact Hq|]. destruct (A p (or_introl eq_refl)) as (_ & A1 & A2).
    split; [constructor; [|exact I1]|cbn [length]; congruence]. unfold filler. rewrite R4, R5. auto. }
  destruct T as [T1 T2]. rewrite <- T2. apply filler_dup; try assumption. apply declares_bounded. exact D.
Qed.
Print Assumptions C49_repeats_refuted.
Example C49_nonvacuous : option_map (fun x => (map iso_cc (fst x), snd x)) (fill_pid 256 29) = Some ([13; 14; 15], 32) /\ fill_pid 256 16 = Some ([], 16).
Proof. split; vm_compute; reflexivity. Qed.
