(** C84: the list of the frames of a track shows what the NAL units say. *)
From Verif Require Import Util Bits_spec Bits_lemmas Bitstream_model Nal_model Sps_model Sps_proofs Sps_proofs2 Sps_props Slice_model Slice_proofs.
Local Open Scope Z_scope.

(** One line for every NAL unit of a sample, in order: the fields of a slice header, the type and
    size of a message and the clock times it has, or the type of another unit. *)
Theorem C84_sample : forall a q qs p ps us ls, a_sps a = q :: qs -> a_pps a = p :: ps -> get_nal_length_size a = 4 ->
  Forall2 (line_of q p) us ls -> Forall (fun u => Z.of_nat (length u) < 2 ^ 32) us -> frame_lines a (concat (map with_length4 us)) = Ok ls.
Proof. exact frame_ok. Qed.
Print Assumptions C84_sample.
(** A header is read as the standard writes it, whatever follows it. *)
Theorem C84_header : forall q p type h rest, header_ok q p type h -> slice_known q p h -> get_slice q p type (header_syntax q p type h ++ rest) = Ok (shown_slice q h, rest).
Proof. intros q p type h rest H K. exact (rd_slice q p type h H K rest). Qed.
Print Assumptions C84_header.
Theorem C84_timing : forall q u t rest, q_vui q = Some u -> vui_ok u -> (u_nal u = None -> u_vcl u = None) -> timing_ok u t ->
  get_timing q (timing_syntax u t ++ rest) = Ok (timing_read u t, rest).
Proof. intros q u t rest V O N T. exact (rd_timing q u t V O N T rest). Qed.
Print Assumptions C84_timing.
(** The type and size of a message. *)
Theorem C84_coded : forall v rest, 0 <= v < 2 ^ 31 -> ff_coded (ff_code v ++ rest) = Ok (v, rest).
Proof. intros v rest R. exact (rd_ff v R rest). Qed.
Print Assumptions C84_coded.
Example C84_coded_300 : ff_code 300 = bytes_bits [255; 45]. Proof. reflexivity. Qed.

(** an IDR picture of the stream of C62, a B picture (not used for reference, direct_spatial 1,
    2 and 1 references), a message with user data, an access unit delimiter *)
Definition ex_i : header := mkHeader 0 7 0 None 0 None (Some 0) [0] None None None.
Definition ex_b : header := mkHeader 0 1 0 None 2 None None [6] None (Some 1) (Some [1; 0]).
Definition ex_i_payload : list Z := [0x88; 0x84; 0x00; 0x33; 0xFF].
Definition ex_b_payload : list Z := [0xA9; 0x0D; 0xA8; 0x80; 0x03].
Definition ex_units : list (list Z) := [nal_unit 9 0 [0xF0]; nal_unit 6 0 ([0x05; 0x02; 1; 2; 0x80]); nal_unit 5 3 ex_i_payload; nal_unit 1 0 ex_b_payload].
Definition ex_lines : list line := [OtherLine 9; SeiLine 5 2 None;
  SliceLine 20 5 3 6 (mkSlice 0 7 0 0 None 0 0 0 (0, 0) 0 None None 0 0);
  SliceLine 21 1 0 5 (mkSlice 0 1 0 2 None 0 6 0 (0, 0) 0 (Some 1) (Some 1) 1 0)].
Definition ex_avcc : avcc := mkAvcc 100 0 31 3 [ex_sps] [ex_pps] [ex_sps_unit] [ex_pps_unit].
Ltac bs := repeat (apply Forall_cons; [unfold is_byte; lia|]); apply Forall_nil.
Lemma ex_i_ok : header_ok ex_sps ex_pps 5 ex_i /\ slice_known ex_sps ex_pps ex_i.
Proof.
  split.
  - unfold header_ok. cbn [ex_i ex_sps ex_pps e_first e_type e_pps e_colour e_frame_num e_field e_idr e_order e_redundant e_direct e_refs q_frame_num q_order q_field given has p_redundant p_order].
    split; [ranges|]. split; [lia|]. split; [ranges|]. split; [reflexivity|]. split; [exact Logic.I|]. split; [lia|]. split; [ranges|]. split; [reflexivity|]. split; [exact Logic.I|].
    split; [reflexivity|]. split; [ranges|]. split; [split; [lia|]; exists 0, []; split; [reflexivity|]; split; [ranges|]; split; [apply Forall_nil|reflexivity]|].
    split; [reflexivity|]. split; [exact Logic.I|]. split; [reflexivity|]. split; [exact Logic.I|]. reflexivity.
  - unfold slice_known. split; [cbn [In ex_i e_type]; tauto|]. split; [reflexivity|]. split; [left; reflexivity|]. split; [left; reflexivity|]. intros _ Q. discriminate Q.
Qed.
Lemma ex_b_ok : header_ok ex_sps ex_pps 1 ex_b /\ slice_known ex_sps ex_pps ex_b.
Proof.
  split.
  - unfold header_ok. cbn [ex_b ex_sps ex_pps e_first e_type e_pps e_colour e_frame_num e_field e_idr e_order e_redundant e_direct e_refs q_frame_num q_order q_field given has p_redundant p_order].
    split; [ranges|]. split; [lia|]. split; [ranges|]. split; [reflexivity|]. split; [exact Logic.I|]. split; [lia|]. split; [ranges|]. split; [reflexivity|]. split; [exact Logic.I|].
    split; [reflexivity|]. split; [exact Logic.I|]. split; [split; [lia|]; exists 6, []; split; [reflexivity|]; split; [ranges|]; split; [apply Forall_nil|reflexivity]|].
    split; [reflexivity|]. split; [exact Logic.I|]. split; [reflexivity|]. split; [ranges|].
    change (Forall is_ue [1; 0] /\ length [1; 0] = 2%nat). split; [|reflexivity]. apply Forall_cons; [ranges|]. apply Forall_cons; [ranges|apply Forall_nil].
  - unfold slice_known. split; [cbn [In ex_b e_type]; tauto|]. split; [reflexivity|]. split; [left; reflexivity|]. split; [left; reflexivity|]. intros _ Q. discriminate Q.
Qed.
Lemma ex_lines_of : Forall2 (line_of ex_sps ex_pps) ex_units ex_lines.
Proof.
  destruct ex_i_ok as [I1 I2]. destruct ex_b_ok as [B1 B2].
  apply Forall2_cons; [apply line_other; lia|].
  apply Forall2_cons; [apply line_message; [lia|lia|lia|lia|]; split; [bs|]; exists (bytes_bits [1; 2; 0x80]); split; [vm_compute; reflexivity|intro Q; discriminate Q]|].
  apply Forall2_cons.
  { assert (E : SliceLine 20 5 3 6 (mkSlice 0 7 0 0 None 0 0 0 (0, 0) 0 None None 0 0)
      = SliceLine (Z.of_nat (length (header_syntax ex_sps ex_pps 5 ex_i))) 5 3 (1 + Z.of_nat (length (without_last_3 ex_i_payload))) (shown_slice ex_sps ex_i)) by (vm_compute; reflexivity).
    rewrite E. apply line_slice; [cbn [In]; tauto|lia|exact I1|exact I2|]. split; [bs|].
    exists (skipn 20 (bytes_bits ex_i_payload)). split; [vm_compute; reflexivity|intro Q; discriminate Q]. }
  apply Forall2_cons; [|apply Forall2_nil].
  assert (E : SliceLine 21 1 0 5 (mkSlice 0 1 0 2 None 0 6 0 (0, 0) 0 (Some 1) (Some 1) 1 0)
    = SliceLine (Z.of_nat (length (header_syntax ex_sps ex_pps 1 ex_b))) 1 0 (1 + Z.of_nat (length (without_last_3 ex_b_payload))) (shown_slice ex_sps ex_b)) by (vm_compute; reflexivity).
  rewrite E. apply line_slice; [cbn [In]; tauto|lia|exact B1|exact B2|]. split; [bs|].
  exists (skipn 21 (bytes_bits ex_b_payload)). split; [vm_compute; reflexivity|intros _; vm_compute; lia].
Qed.
Example C84_nonvacuous : Forall2 (line_of ex_sps ex_pps) ex_units ex_lines /\ frame_lines ex_avcc (concat (map with_length4 ex_units)) = Ok ex_lines
  /\ frame_lines ex_avcc [0;0;0;2;9;0xF0; 0;0;0;6;6;5;2;1;2;0x80; 0;0;0;6;0x65;0x88;0x84;0;0x33;0xFF; 0;0;0;6;1;0xA9;0x0D;0xA8;0x80;3] = Ok ex_lines.
Proof. split; [exact ex_lines_of|]. split; vm_compute; reflexivity. Qed.

(** a picture timing message: HRD with delays of 24 bits and time offsets of 24 bits, one clock *)
Definition ex_vui : vui := mkVui None None None None None (Some (mkHrd 0 0 [(100, 200, 0)] 23 23 23 24)) None 0 1 None.
Definition ex_sps_t : sps := mkSps 77 (0, 0, 0, 0) 0 31 0 None 0 (Order0 2) 4 0 79 44 None 1 None (Some ex_vui).
Definition ex_timing (off : Z) : timing := mkTiming (Some (5, 9)) (Some (0, [Some (mkClock 1 0 4 0 0 12 (Full 59 30 10) off)])).
Lemma ex_timing_ok off : - 2 ^ 23 <= off < 2 ^ 23 -> vui_ok ex_vui /\ timing_ok ex_vui (ex_timing off).
Proof.
  intro O. split.
  - unfold vui_ok. cbn [ex_vui u_aspect u_overscan u_signal u_chroma u_timing u_nal u_vcl u_low u_struct u_limits given].
    do 5 (split; [exact Logic.I|]). split.
    { unfold hrd_ok. cbn [h_cpb h_rate_scale h_size_scale h_delay h_removal h_output h_offset length].
      split; [lia|]. split; [apply Forall_cons; [split; [ranges|]; split; ranges|apply Forall_nil]|]. do 5 (split; [ranges|]). ranges. }
    split; [exact Logic.I|]. split; [ranges|]. split; [intro Q; discriminate Q|]. split; [ranges|exact Logic.I].
  - unfold timing_ok. cbn [ex_vui ex_timing g_delays g_struct the_hrd u_nal u_struct has given fst snd h_removal h_output length].
    split; [reflexivity|]. split; [split; ranges|]. split; [reflexivity|]. split; [lia|]. split; [reflexivity|].
    apply Forall_cons; [|apply Forall_nil]. unfold clock_ok. cbn [given c_type c_nuit c_counting c_discontinuity c_dropped c_frames c_time c_offset stamp_ok offset_length the_hrd u_nal h_offset ex_vui].
    do 6 (split; [ranges|]). split; [split; [ranges|split; ranges]|]. change (24 =? 0) with false. cbv iota. change (24 - 1) with 23. exact O.
Qed.
Example C84_timing_nonvacuous : vui_ok ex_vui /\ timing_ok ex_vui (ex_timing 7)
  /\ get_timing ex_sps_t (timing_syntax ex_vui (ex_timing 7) ++ [true; false]) = Ok (ex_timing 7, [true; false])
  /\ length (timing_syntax ex_vui (ex_timing 7)) = 113%nat.
Proof. destruct (ex_timing_ok 7 ltac:(lia)) as [A B]. split; [exact A|]. split; [exact B|]. split; vm_compute; reflexivity. Qed.

(** Refuted: time offsets before the clock time come out as large ones after it. *)
Theorem C84_offset_refuted : vui_ok ex_vui /\ timing_ok ex_vui (ex_timing (-7))
  /\ get_timing ex_sps_t (timing_syntax ex_vui (ex_timing (-7))) = Ok (ex_timing (2 ^ 24 - 7), []).
Proof. destruct (ex_timing_ok (-7) ltac:(lia)) as [A B]. split; [exact A|]. split; [exact B|]. vm_compute. reflexivity. Qed.
Print Assumptions C84_offset_refuted.
(** Refuted: only vcl_hrd_parameters, or no vui_parameters. *)
Definition ex_vui_vcl : vui := mkVui None None None None None None (Some (mkHrd 0 0 [(100, 200, 0)] 23 23 23 24)) 0 1 None.
Definition ex_sps_vcl : sps := mkSps 77 (0, 0, 0, 0) 0 31 0 None 0 (Order0 2) 4 0 79 44 None 1 None (Some ex_vui_vcl).
Definition ex_sps_none : sps := mkSps 77 (0, 0, 0, 0) 0 31 0 None 0 (Order0 2) 4 0 79 44 None 1 None None.
Theorem C84_hrd_refuted : timing_ok ex_vui_vcl (ex_timing 7) /\ get_timing ex_sps_vcl (timing_syntax ex_vui_vcl (ex_timing 7)) = UB
  /\ (forall s, get_timing ex_sps_none s = UB).
Proof.
  split; [|split; [vm_compute; reflexivity|intro s; reflexivity]].
  destruct (ex_timing_ok 7 ltac:(lia)) as [_ (A & B & C & D)].
  exact (conj A (conj B (conj C D))).
Qed.
Print Assumptions C84_hrd_refuted.
(** Refuted: the slice types 5, 6 and 8, which say in addition that all the slices of the picture
    have that type, are taken for types without references (x264 writes these). *)
Definition ex_p (type : Z) : header := mkHeader 0 type 0 None 1 None None [2] None None (Some [2]).
Theorem C84_type_refuted : header_ok ex_sps ex_pps 1 (ex_p 5)
  /\ (exists rest, get_slice ex_sps ex_pps 1 (header_syntax ex_sps ex_pps 1 (ex_p 5)) = Ok (mkSlice 0 5 0 1 None 0 2 0 (0, 0) 0 None None 0 0, rest))
  /\ get_slice ex_sps ex_pps 1 (header_syntax ex_sps ex_pps 1 (ex_p 0)) = Ok (mkSlice 0 0 0 1 None 0 2 0 (0, 0) 0 None (Some 1) 2 0, [])
  /\ shown_slice ex_sps (ex_p 5) = mkSlice 0 5 0 1 None 0 2 0 (0, 0) 0 None (Some 1) 2 0.
Proof.
  split.
  - unfold header_ok. cbn [ex_p ex_sps ex_pps e_first e_type e_pps e_colour e_frame_num e_field e_idr e_order e_redundant e_direct e_refs q_frame_num q_order q_field given has p_redundant p_order].
    split; [ranges|]. split; [lia|]. split; [ranges|]. split; [reflexivity|]. split; [exact Logic.I|]. split; [lia|]. split; [ranges|]. split; [reflexivity|]. split; [exact Logic.I|].
    split; [reflexivity|]. split; [exact Logic.I|]. split; [split; [lia|]; exists 2, []; split; [reflexivity|]; split; [ranges|]; split; [apply Forall_nil|reflexivity]|].
    split; [reflexivity|]. split; [exact Logic.I|]. split; [reflexivity|]. split; [exact Logic.I|].
    change (Forall is_ue [2] /\ length [2] = 1%nat). split; [|reflexivity]. apply Forall_cons; [ranges|apply Forall_nil].
  - split; [eexists; vm_compute; reflexivity|]. split; vm_compute; reflexivity.
Qed.
Print Assumptions C84_type_refuted.
(** Refuted: where the header does not override it, the number of references is that of the
    picture parameter set (7.4.3), and 0 is shown. *)
Definition ex_p_default : header := mkHeader 0 0 0 None 1 None None [2] None None None.
Theorem C84_default_refuted : p_l0 ex_pps = 2
  /\ exists s, get_slice ex_sps ex_pps 1 (header_syntax ex_sps ex_pps 1 ex_p_default) = Ok (s, []) /\ l_override s = Some 0 /\ l_l0 s = 0.
Proof. split; [reflexivity|]. eexists. split; [vm_compute; reflexivity|]. split; reflexivity. Qed.
Print Assumptions C84_default_refuted.
(** Refuted: progressive sequences whose pictures say that the order of fields is there: the
    member field_pic_flag decides, and nothing wrote it. *)
Definition ex_pps_order : pps := mkPps 0 0 1 1 OneGroup 2 0 1 2 (-3) 0 (-2) 1 0 0.
Definition ex_i_order : header := mkHeader 0 7 0 None 0 None (Some 0) [0; 0] None None None.
Theorem C84_field_refuted : header_ok ex_sps ex_pps_order 5 ex_i_order /\ get_slice ex_sps ex_pps_order 5 (header_syntax ex_sps ex_pps_order 5 ex_i_order) = UB.
Proof.
  split; [|vm_compute; reflexivity].
  unfold header_ok. cbn [ex_i_order ex_sps ex_pps_order e_first e_type e_pps e_colour e_frame_num e_field e_idr e_order e_redundant e_direct e_refs q_frame_num q_order q_field given has p_redundant p_order].
  split; [ranges|]. split; [lia|]. split; [ranges|]. split; [reflexivity|]. split; [exact Logic.I|]. split; [lia|]. split; [ranges|]. split; [reflexivity|]. split; [exact Logic.I|].
  split; [reflexivity|]. split; [ranges|].
  split; [split; [lia|]; exists 0, [0]; split; [reflexivity|]; split; [ranges|]; split; [apply Forall_cons; [ranges|apply Forall_nil]|reflexivity]|].
  split; [reflexivity|]. split; [exact Logic.I|]. split; [reflexivity|]. split; [exact Logic.I|]. reflexivity.
Qed.
Print Assumptions C84_field_refuted.
(** Refuted: separate colour planes. *)
Definition ex_sps_444 : sps := mkSps 244 (0, 0, 0, 0) 0 31 0 (Some (3, Some 1, 0, 0, 0, 0)) 0 (Order0 2) 4 0 79 44 None 1 None None.
Definition ex_i_colour : header := mkHeader 0 7 0 (Some 2) 8 None (Some 0) [0] None None None.
Theorem C84_colour_refuted : header_ok ex_sps_444 ex_pps 5 ex_i_colour
  /\ exists s rest, get_slice ex_sps_444 ex_pps 5 (header_syntax ex_sps_444 ex_pps 5 ex_i_colour ++ [true; false; true; true]) = Ok (s, rest) /\ l_frame_num s = 10.
Proof.
  split; [|eexists; eexists; split; [vm_compute; reflexivity|reflexivity]].
  unfold header_ok. cbn [ex_i_colour ex_sps_444 ex_pps e_first e_type e_pps e_colour e_frame_num e_field e_idr e_order e_redundant e_direct e_refs q_frame_num q_order q_field given has p_redundant p_order].
  split; [ranges|]. split; [lia|]. split; [ranges|]. split; [reflexivity|]. split; [ranges|]. split; [lia|]. split; [ranges|]. split; [reflexivity|]. split; [exact Logic.I|].
  split; [reflexivity|]. split; [ranges|].
  split; [split; [lia|]; exists 0, []; split; [reflexivity|]; split; [ranges|]; split; [apply Forall_nil|reflexivity]|].
  split; [reflexivity|]. split; [exact Logic.I|]. split; [reflexivity|]. split; [exact Logic.I|]. reflexivity.
Qed.
Print Assumptions C84_colour_refuted.
(** Refuted: lengths of 2 bytes: the next unit is looked for 4 bytes after the length's end. *)
Definition ex_avcc2 : avcc := mkAvcc 100 0 31 1 [ex_sps] [ex_pps] [ex_sps_unit] [ex_pps_unit].
Theorem C84_length_refuted : get_nal_length_size ex_avcc2 = 2
  /\ frame_lines ex_avcc2 ([0; 2] ++ nal_unit 9 0 [0xF0] ++ [0; 6] ++ nal_unit 5 3 ex_i_payload) = UB
  /\ frame_lines ex_avcc2 ([0; 2] ++ nal_unit 9 0 [0xF0] ++ [0; 2] ++ nal_unit 10 0 [0; 0]) <> Ok [OtherLine 9; OtherLine 10].
Proof. split; [reflexivity|]. split; [vm_compute; reflexivity|]. vm_compute. discriminate. Qed.
Print Assumptions C84_length_refuted.
(** Refuted: the messages after the first of a unit. *)
Theorem C84_second_refuted : bytes_bits [5; 2; 1; 2; 6; 1; 3; 128] = (ff_code 5 ++ ff_code 2 ++ bytes_bits [1; 2]) ++ (ff_code 6 ++ ff_code 1 ++ bytes_bits [3]) ++ [true] ++ repeat false 7
  /\ frame_lines ex_avcc (with_length4 (nal_unit 6 0 [5; 2; 1; 2; 6; 1; 3; 128])) = Ok [SeiLine 5 2 None].
Proof. split; vm_compute; reflexivity. Qed.
Print Assumptions C84_second_refuted.
