(** C62: H.264 parameter sets are read as the standard writes them.
    C63: the avcC record made of two parameter sets, and reading it. *)
From Verif Require Import Util Bits_spec Bits_lemmas Bitstream_model Nal_model Sps_model Sps_proofs Sps_proofs2.
Local Open Scope Z_scope.

(** Exp-Golomb codes of the standard, whatever follows them. *)
Theorem C62_ue : forall v rest, 0 <= v < 2 ^ 31 - 1 -> ue (ue_code v ++ rest) = Ok (v, rest).
Proof. intros v rest R. exact (rd_ue v R rest). Qed.
Print Assumptions C62_ue.
Theorem C62_se : forall v rest, - 2 ^ 23 <= v <= 2 ^ 23 -> se (se_code v ++ rest) = Ok (v, rest).
Proof. intros v rest R. exact (rd_se v R rest). Qed.
Print Assumptions C62_se.
Example C62_codes : ue_code 5 = [false; false; true; true; false] /\ se_code (-2) = [false; false; true; false; true].
Proof. split; reflexivity. Qed.

(** A sequence parameter set in a NAL unit: every field comes back. *)
Theorem C62_sps : forall s u, sps_known s -> carries 7 u (sps_syntax s) -> parse_nal get_sps u = Ok (read_as s).
Proof. exact sps_back. Qed.
Print Assumptions C62_sps.
(** A picture parameter set, with or without an extension after it. *)
Theorem C62_pps : forall p u ext, pps_known p -> carries 8 u (pps_syntax p ++ ext) -> parse_nal get_pps u = Ok p.
Proof. exact pps_back. Qed.
Print Assumptions C62_pps.

(** a 1280x720 stream of x264 *)
Definition ex_sps : sps := mkSps 100 (0, 0, 0, 0) 0 31 0 (Some (1, None, 0, 0, 0, 0)) 0 (Order0 2) 4 0 79 44 None 1 None
  (Some (mkVui (Some (1, None)) None None None (Some (1, 60, 0)) None None 0 0 (Some (1, 0, 0, 11, 11, 2, 4)))).
Definition ex_sps_unit : list Z := [0x67; 0x64; 0x00; 0x1F; 0xAC; 0xD9; 0x40; 0x50; 0x05; 0xBB; 0x01; 0x10; 0x00; 0x00; 0x03; 0x00; 0x10; 0x00; 0x00; 0x03; 0x03; 0xC0; 0xF1; 0x83; 0x19; 0x60].
Definition ex_pps : pps := mkPps 0 0 1 0 OneGroup 2 0 1 2 (-3) 0 (-2) 1 0 0.
Definition ex_pps_unit : list Z := [0x68; 0xEB; 0xE3; 0xCB; 0x22; 0xC0].
Ltac ranges := unfold is_flag, is_ue, is_se, is_u; cbn; lia.
Lemma ex_sps_known : sps_known ex_sps.
Proof.
  split; [|split; [reflexivity|split; [intros _; left; reflexivity|intros _; cbn; lia]]].
  unfold sps_ok. cbn [ex_sps q_profile q_constraints q_reserved q_level q_id q_high q_frame_num q_order q_refs q_gaps q_width q_height q_field q_direct q_crop q_vui given order_ok].
  split; [ranges|]. split; [unfold is_flag; lia|]. split; [ranges|]. split; [ranges|]. split; [ranges|].
  split; [split; [discriminate|intros _; left; reflexivity]|].
  split; [split; [ranges|]; split; [split; [discriminate|intro Q; exfalso; apply Q; reflexivity]|]; split; [exact I|]; split; [ranges|]; split; [ranges|]; split; ranges|].
  do 6 (split; [ranges|]). split; [exact I|]. split; [ranges|]. split; [exact I|].
  unfold vui_ok. cbn [u_aspect u_overscan u_signal u_chroma u_timing u_nal u_vcl u_low u_struct u_limits given fst snd].
  split; [split; [ranges|]; split; [split; [discriminate|intro Q; exfalso; apply Q; reflexivity]|exact I]|].
  do 3 (split; [exact I|]). split; [split; [ranges|split; ranges]|]. do 2 (split; [exact I|]). split; [ranges|]. split; [reflexivity|]. split; [ranges|].
  repeat (split; [ranges|]). ranges.
Qed.
Lemma ex_sps_carried : carries 7 ex_sps_unit (sps_syntax ex_sps).
Proof.
  exists [0x64; 0x00; 0x1F; 0xAC; 0xD9; 0x40; 0x50; 0x05; 0xBB; 0x01; 0x10; 0x00; 0x00; 0x00; 0x10; 0x00; 0x00; 0x03; 0xC0; 0xF1; 0x83; 0x19; 0x60].
  split; [split; [repeat (apply Forall_cons; [unfold is_byte; lia|]); apply Forall_nil|exists 5%nat; split; [lia|vm_compute; reflexivity]]|].
  split; [exists 0x67; split; [unfold is_byte; lia|split; [reflexivity|vm_compute; reflexivity]]|cbn; lia].
Qed.
Lemma ex_pps_known : pps_known ex_pps.
Proof.
  split; [|intros n l; discriminate]. unfold pps_ok. cbn [ex_pps p_id p_sps p_entropy p_order p_groups p_l0 p_l1 p_weighted p_bipred p_qp p_qs p_chroma p_deblock p_intra p_redundant groups_ok].
  do 4 (split; [ranges|]). split; [exact I|]. do 9 (split; [ranges|]). ranges.
Qed.
(** its extension: transform_8x8_mode_flag 1, no scaling matrix, second_chroma_qp_index_offset -2 *)
Lemma ex_pps_carried : carries 8 ex_pps_unit (pps_syntax ex_pps ++ [true; false] ++ se_code (-2)).
Proof.
  exists [0xEB; 0xE3; 0xCB; 0x22; 0xC0].
  split; [split; [repeat (apply Forall_cons; [unfold is_byte; lia|]); apply Forall_nil|exists 6%nat; split; [lia|vm_compute; reflexivity]]|].
  split; [exists 0x68; split; [unfold is_byte; lia|split; [reflexivity|vm_compute; reflexivity]]|cbn; lia].
Qed.
Example C62_nonvacuous : sps_known ex_sps /\ carries 7 ex_sps_unit (sps_syntax ex_sps) /\ pps_known ex_pps /\ carries 8 ex_pps_unit (pps_syntax ex_pps ++ [true; false] ++ se_code (-2))
  /\ parse_nal get_sps ex_sps_unit = Ok ex_sps /\ parse_nal get_pps ex_pps_unit = Ok ex_pps.
Proof.
  split; [exact ex_sps_known|]. split; [exact ex_sps_carried|]. split; [exact ex_pps_known|]. split; [exact ex_pps_carried|]. split; vm_compute; reflexivity.
Qed.
(** an older profile, picture order type 1 with signed offsets, interlaced, cropped, with HRD and a colour description *)
Definition ex_sps2 : sps := mkSps 77 (0, 1, 0, 0) 0 40 3 None 4 (Order1 1 (-2) 7 [-1; 0; 5]) 2 1 44 17 (Some 1) 1 (Some (0, 1, 2, 3))
  (Some (mkVui (Some (255, Some (16, 11))) (Some 1) (Some (5, 0, Some (6, 6, 5))) (Some (1, 1)) (Some (1001, 60000, 1)) (Some (mkHrd 1 2 [(1000, 2000, 0); (3000, 4000, 1)] 23 22 21 24)) None 1 1 None)).
Example C62_nonvacuous2 : get_sps (sps_syntax ex_sps2 ++ [true] ++ repeat false (7 - length (sps_syntax ex_sps2) mod 8)) = Ok (read_as ex_sps2, [])
  /\ q_order (read_as ex_sps2) = Order1 1 (2 ^ 32 - 2) 7 [2 ^ 32 - 1; 0; 5].
Proof. split; vm_compute; reflexivity. Qed.
Definition ex_pps2 : pps := mkPps 1 3 0 1 (Boxes 2 [(4, 5); (6, 90)]) 0 0 0 0 5 (-5) 0 0 1 0.
Example C62_nonvacuous3 : get_pps (pps_syntax ex_pps2 ++ [true] ++ repeat false (7 - length (pps_syntax ex_pps2) mod 8)) = Ok (ex_pps2, []).
Proof. vm_compute. reflexivity. Qed.

(** Refuted: longer codes, though the standard's ue(v) goes up to 2^32 - 2; signed values beyond
    2^23 come out wrong, even in sign. *)
Theorem C62_long_code_refuted : forall rest, ue (ue_code (2 ^ 31 - 1) ++ rest) = UB.
Proof. intro rest. vm_compute. reflexivity. Qed.
Print Assumptions C62_long_code_refuted.
Theorem C62_signed_refuted : forall rest, se (se_code (2 ^ 23 + 1) ++ rest) = Ok (- 2 ^ 23, rest).
Proof. intro rest. vm_compute. reflexivity. Qed.
Print Assumptions C62_signed_refuted.
(** Refuted: profile 44 is one of those with a chroma format; a scaling matrix; a payload that
    ends with a byte 3. *)
Definition unit_of (s : sps) : list Z := 0x67 :: escape 0
  (map (fun i => bits_val (firstn 8 (skipn (8 * i) (sps_syntax s ++ true :: repeat false 8)))) (seq 0 ((length (sps_syntax s) + 8) / 8))).
Definition with_profile (p : Z) : sps := mkSps p (0, 0, 0, 0) 0 31 0 (Some (1, None, 0, 0, 0, 0)) 0 (Order0 2) 4 0 79 44 None 1 None None.
Definition with_matrix (m : Z) : sps := mkSps 100 (0, 0, 0, 0) 0 31 0 (Some (1, None, 0, 0, 0, m)) 0 (Order0 2) 4 0 79 44 None 1 None None.
Theorem C62_profile_refuted : In 44 high_profiles
  /\ (exists q, parse_nal get_sps (unit_of (with_profile 44)) = Ok q /\ q_width q <> 79)
  /\ (exists q, parse_nal get_sps (unit_of (with_profile 110)) = Ok q /\ q_width q = 79).
Proof.
  split; [cbn; tauto|]. split; (eexists; split; [vm_compute; reflexivity|]); vm_compute; congruence.
Qed.
Print Assumptions C62_profile_refuted.
Theorem C62_matrix_refuted :
     parse_nal get_sps (unit_of (with_matrix 1)) = EndOfData
  /\ (exists q, parse_nal get_sps (unit_of (with_matrix 0)) = Ok q /\ q_width q = 79).
Proof. split; [vm_compute; reflexivity|]. eexists. split; [vm_compute; reflexivity|]. vm_compute. reflexivity. Qed.
Print Assumptions C62_matrix_refuted.

(** a picture parameter set in order, whose extension is transform_8x8_mode_flag 0, no scaling
    matrix, second_chroma_qp_index_offset 0: its last byte is 3 *)
Definition ex_pps3 : pps := mkPps 0 0 1 0 OneGroup 0 0 0 0 1 0 1 0 0 0.
Lemma ex_pps3_known : pps_known ex_pps3.
Proof.
  split; [|intros n l; discriminate]. unfold pps_ok. cbn [ex_pps3 p_id p_sps p_entropy p_order p_groups p_l0 p_l1 p_weighted p_bipred p_qp p_qs p_chroma p_deblock p_intra p_redundant groups_ok].
  do 4 (split; [ranges|]). split; [exact I|]. do 9 (split; [ranges|]). ranges.
Qed.
Theorem C62_final_3_refuted : exists p ext r u, pps_known p /\ is_rbsp r (pps_syntax p ++ ext) /\ is_unit 8 u r /\ parse_nal get_pps u = EndOfData.
Proof.
  exists ex_pps3, ([false; false] ++ se_code 0), [0xEE; 0x15; 3], [0x68; 0xEE; 0x15; 3].
  split; [exact ex_pps3_known|].
  split; [split; [repeat (apply Forall_cons; [unfold is_byte; lia|]); apply Forall_nil|exists 0%nat; split; [lia|vm_compute; reflexivity]]|].
  split; [exists 0x68; split; [unfold is_byte; lia|split; [reflexivity|vm_compute; reflexivity]]|]. vm_compute. reflexivity.
Qed.
Print Assumptions C62_final_3_refuted.
(** Refuted: explicit slice group maps (the numbers of the groups are not Exp-Golomb codes). *)
Definition ex_pps4 : pps := mkPps 0 0 0 0 (Assigned 2 [2; 1; 0; 2]) 0 0 0 0 1 0 1 0 0 0.
Theorem C62_assigned_refuted : pps_ok ex_pps4 /\ forall bits, exists q, get_pps (pps_syntax ex_pps4 ++ true :: repeat true 30 ++ bits) = Ok q /\ p_groups (fst q) <> p_groups ex_pps4 /\ p_qp (fst q) <> p_qp ex_pps4.
Proof.
  split.
  - unfold pps_ok. cbn [ex_pps4 p_id p_sps p_entropy p_order p_groups p_l0 p_l1 p_weighted p_bipred p_qp p_qs p_chroma p_deblock p_intra p_redundant groups_ok].
    do 4 (split; [ranges|]). split; [split; [lia|split; [discriminate|repeat (apply Forall_cons; [lia|]); apply Forall_nil]]|]. do 9 (split; [ranges|]). ranges.
  - intro bits. eexists. split; [vm_compute; reflexivity|]. cbn [fst p_groups p_qp ex_pps4]. split; discriminate.
Qed.
Print Assumptions C62_assigned_refuted.

(** * C63 *)
(** A stream made of two parameter sets: the record is that of the standard, and reading it gives
    the sets back, as bytes and as fields; samples have lengths of 4 bytes. *)
Theorem C63_record : forall s su p pu ext more, sps_known s -> carries 7 su (sps_syntax s) -> pps_known p -> carries 8 pu (pps_syntax p ++ ext) ->
  (length su <= 256)%nat -> (length pu <= 256)%nat ->
  exists w h body a, record_of su pu = Ok (w, h, body) /\ get_avcc (bytes_bits (body ++ more)) = Ok (a, bytes_bits more)
    /\ get_sequence a = su /\ get_picture a = pu /\ a_profile a = q_profile s /\ a_level a = q_level s /\ get_nal_length_size a = 4 /\ a_sps a = [read_as s] /\ a_pps a = [p].
Proof. exact record_round. Qed.
Print Assumptions C63_record.
Theorem C63_layout : forall s su p pu ext, sps_known s -> carries 7 su (sps_syntax s) -> pps_known p -> carries 8 pu (pps_syntax p ++ ext) -> (length su <= 256)%nat -> (length pu <= 256)%nat ->
  exists compat, is_byte compat /\ record_of su pu = Ok ((16 * (q_width s + 1)) mod 2 ^ 32, (16 * (q_height s + 1)) mod 2 ^ 32, record_syntax (q_profile s) compat (q_level s) 3 [su] [pu]).
Proof. exact record_written. Qed.
Print Assumptions C63_layout.
(** Width and height are those of the pictures when these are frames without cropping. *)
Theorem C63_size : forall s su p pu ext, sps_known s -> carries 7 su (sps_syntax s) -> pps_known p -> carries 8 pu (pps_syntax p ++ ext) -> (length su <= 256)%nat -> (length pu <= 256)%nat ->
  q_field s = None -> q_crop s = None -> q_width s < 2 ^ 28 - 1 -> q_height s < 2 ^ 28 - 1 ->
  exists body, record_of su pu = Ok (fst (shown s), snd (shown s), body).
Proof.
  intros s su p pu ext K C KP CP L1 L2 F CR W H. destruct (record_written s su p pu ext K C KP CP L1 L2) as (compat & B & E). rewrite shown_plain by assumption.
  assert (R : is_ue (q_width s) /\ is_ue (q_height s)) by (destruct K as (K & _); unfold sps_ok in K; tauto). destruct R as [R1 R2]. unfold is_ue in *.
  rewrite !Z.mod_small in E by lia. eexists. exact E.
Qed.
Print Assumptions C63_size.
(** Any record, with several sets and whatever comes after: every set is read. *)
Theorem C63_read : forall profile compat level size ss sv ps pv more, is_byte profile -> is_byte compat -> is_byte level -> 0 <= size < 4 ->
  (length ss < 32)%nat -> (length ps < 256)%nat ->
  Forall2 (fun u s => (length u <= 256)%nat /\ sps_known s /\ carries 7 u (sps_syntax s)) ss sv ->
  Forall2 (fun u p => (length u <= 256)%nat /\ pps_known p /\ exists ext, carries 8 u (pps_syntax p ++ ext)) ps pv ->
  exists a, get_avcc (bytes_bits (record_syntax profile compat level size ss ps ++ more)) = Ok (a, bytes_bits more)
    /\ a_profile a = profile /\ a_compat a = compat /\ a_level a = level /\ get_nal_length_size a = size + 1 /\ a_sps a = map read_as sv /\ a_pps a = pv.
Proof.
  intros profile compat level size ss sv ps pv more B1 B2 B3 R L1 L2 F1 F2. eexists. split; [exact (record_back profile compat level size ss sv ps pv more B1 B2 B3 R L1 L2 F1 F2)|].
  repeat (split; [reflexivity|]). reflexivity.
Qed.
Print Assumptions C63_read.
Example C63_nonvacuous : exists a, record_of ex_sps_unit ex_pps_unit = Ok (1280, 720, [1; 100; 0; 31; 255; 225; 0; 26] ++ ex_sps_unit ++ [1; 0; 6] ++ ex_pps_unit) /\ shown ex_sps = (1280, 720)
  /\ get_avcc (bytes_bits ([1; 100; 0; 31; 255; 225; 0; 26] ++ ex_sps_unit ++ [1; 0; 6] ++ ex_pps_unit)) = Ok (a, []) /\ get_sequence a = ex_sps_unit /\ a_sps a = [ex_sps].
Proof.
  eexists. split; [vm_compute; reflexivity|]. split; [vm_compute; reflexivity|]. split; [vm_compute; reflexivity|]. split; vm_compute; reflexivity.
Qed.

(** Refuted: 1080p (1088 lines, 8 of which are cropped), and interlaced pictures. *)
Definition ex_1080 : sps := mkSps 100 (0, 0, 0, 0) 0 40 0 (Some (1, None, 0, 0, 0, 0)) 0 (Order0 2) 4 0 119 67 None 1 (Some (0, 0, 0, 4)) None.
Definition ex_fields : sps := mkSps 100 (0, 0, 0, 0) 0 40 0 (Some (1, None, 0, 0, 0, 0)) 0 (Order0 2) 4 0 44 17 (Some 1) 1 None None.
Theorem C63_size_refuted : shown ex_1080 = (1920, 1080) /\ (exists body, record_of (unit_of ex_1080) ex_pps_unit = Ok (1920, 1088, body))
  /\ shown ex_fields = (720, 576) /\ (exists body, record_of (unit_of ex_fields) ex_pps_unit = Ok (720, 288, body)).
Proof.
  split; [reflexivity|]. split; [eexists; vm_compute; reflexivity|]. split; [reflexivity|]. eexists. vm_compute. reflexivity.
Qed.
Print Assumptions C63_size_refuted.
(** Refuted: profile_compatibility should be the byte of the constraint flags. *)
Definition ex_baseline : sps := mkSps 66 (1, 1, 0, 0) 0 30 0 None 0 (Order0 2) 4 0 39 29 None 1 None None.
Theorem C63_compat_refuted : nth 2 (unit_of ex_baseline) 0 = 192 /\ exists body, record_of (unit_of ex_baseline) ex_pps_unit = Ok (640, 480, body) /\ nth 2 body 0 = 1.
Proof. split; [vm_compute; reflexivity|]. eexists. split; [vm_compute; reflexivity|]. vm_compute. reflexivity. Qed.
Print Assumptions C63_compat_refuted.
(** Refuted: with two sequence parameter sets, the bytes given for the first are not its own. *)
Theorem C63_several_refuted : exists a, get_avcc (bytes_bits (record_syntax 100 0 31 3 [ex_sps_unit; unit_of ex_1080] [ex_pps_unit])) = Ok (a, [])
  /\ a_sps a = [ex_sps; ex_1080] /\ get_sequence a <> ex_sps_unit /\ get_sequence a <> unit_of ex_1080.
Proof.
  eexists. split; [vm_compute; reflexivity|]. split; [vm_compute; reflexivity|]. split; vm_compute; congruence.
Qed.
Print Assumptions C63_several_refuted.
(** Refuted: a unit of 257 bytes is beyond the arrays. *)
Theorem C63_long_refuted : forall su, length su = 257%nat -> record_of ex_sps_unit su = UB.
Proof. intros su L. unfold record_of. replace (parse_nal get_sps ex_sps_unit) with (@Ok sps ex_sps) by (vm_compute; reflexivity). cbn [bindo]. rewrite L. reflexivity. Qed.
Print Assumptions C63_long_refuted.

(** Codec private data of the Smooth Streaming form: the two sets, each after its length. *)
Theorem C63_private_data : forall su pu more, bytes su -> bytes pu -> Z.of_nat (length su) < 65536 -> Z.of_nat (length pu) < 65536 ->
  split_private (with_length su ++ with_length pu ++ more) = Some (su, pu).
Proof. exact split_private_ok. Qed.
Print Assumptions C63_private_data.
Example C63_private_nonvacuous : split_private (with_length ex_sps_unit ++ with_length ex_pps_unit ++ [7]) = Some (ex_sps_unit, ex_pps_unit) /\ split_private [0; 9; 1] = None.
Proof. split; vm_compute; reflexivity. Qed.
