(** Proofs for TsSect_model: writing sections, the section reader, filler packets. *)
From Coq Require Import ZifyNat.
From Verif Require Import Util Bits_spec Bits_lemmas TsTime_model Ts_model Ts_proofs Ts_proofs2 Ts_proofs3 Ts_proofs4 Ts_proofs5 Crc_model Crc_proofs Crc_proofs2 TsSect_model TsSect_proofs.
Local Open Scope Z_scope.
Local Ltac Zify.zify_post_hook ::= Z.div_mod_to_equations.

(** * Writing *)
Lemma bits_be32 v : bytes_bits (be32 v) = field_bits v 32.
Proof.
  unfold be32. rewrite !bits_cons. change 32%nat with (8 + (8 + (8 + 8)))%nat. rewrite (field_bits_split v 8 (8 + (8 + 8))), (field_bits_split v 8 (8 + 8)), (field_bits_split v 8 8).
  change (bytes_bits []) with (@nil bool). rewrite app_nil_r.
  pose proof (fun w => field_bits_mod w 8) as M. change (2 ^ Z.of_nat 8) with 256 in *. change (2 ^ Z.of_nat (8 + (8 + 8))) with (2 ^ 24). change (2 ^ Z.of_nat (8 + 8)) with (2 ^ 16).
  rewrite !M. reflexivity.
Qed.
Lemma be16_bytes v : w16 v -> bytes (be16 v).
Proof. intros H. unfold w16 in H. repeat constructor; unfold is_byte; lia. Qed.
Lemma be32_bytes v : bytes (be32 v).
Proof. unfold be32. repeat constructor; unfold is_byte; lia. Qed.
Lemma iso_section_bytes table flags id v f l body : is_byte table -> 0 <= flags < 16 -> w16 id -> is_byte v -> is_byte f -> is_byte l -> bytes body -> zlen body < 4087 ->
  bytes (iso_section table flags id v f l body).
Proof.
  intros. pose proof (zlen_nonneg body). unfold iso_section. apply bytes_cons; split; [assumption|].
  apply bytes_app; split; [apply be16_bytes; unfold w16; lia|]. apply bytes_app; split; [apply be16_bytes; assumption|].
  apply bytes_app; split; [|assumption]. repeat (apply Forall_cons; [assumption|]). apply Forall_nil.
Qed.
Lemma zlen_section table flags id v f l body : zlen (iso_section table flags id v f l body) = 8 + zlen body.
Proof. unfold iso_section, be16. cbn [app]. rewrite !zlen_cons. lia. Qed.
Lemma version_bits r2 : field_bits ((r2 mod 4) * 64 + 1) 8 = field_bits r2 2 ++ field_bits 0 5 ++ field_bits 1 1.
Proof.
  pose proof (field_cat (r2 mod 4) 1 2 6 ltac:(cbn; lia)) as E. change (2 ^ Z.of_nat 6) with 64 in E. change (2 + 6)%nat with 8%nat in E. rewrite E.
  pose proof (field_bits_mod r2 2) as M. change (2 ^ Z.of_nat 2) with 4 in M. rewrite M. reflexivity.
Qed.
Lemma fb_base r2 t l id : 0 <= l < 4096 -> is_byte t ->
  fbits (base_fields r2 t l id) = bytes_bits (t :: be16 (8 * 4096 + l) ++ be16 id ++ [(r2 mod 4) * 64 + 1; 0; 0]).
Proof.
  intros Hl Ht. rewrite bits_cons, !bytes_bits_app, bits_4_12, bits_be16 by lia. rewrite bits_cons, version_bits.
  unfold base_fields, fbits. cbn [flat_map fst snd]. change (bytes_bits [0; 0]) with (field_bits 0 8 ++ field_bits 0 8).
  change (field_bits 8 4) with (field_bits 1 1 ++ field_bits 0 1 ++ field_bits 0 2). rewrite <- !app_assoc, !app_nil_r. reflexivity.
Qed.
Lemma total_app a b : total (map snd (a ++ b : list (Z * nat))) = (total (map snd a) + total (map snd b))%nat.
Proof. rewrite map_app. unfold total. induction (map snd a) as [|x l IH]; [reflexivity|]. cbn [app fold_right]. rewrite IH. lia. Qed.
Lemma pack_eq fs l : bytes l -> fbits fs = bytes_bits l -> pack fs = l.
Proof.
  intros Hl E. assert (T : total (map snd fs) = (8 * length l)%nat) by (rewrite <- fbits_length, E; apply bytes_bits_length).
  apply bytes_bits_inj; [eapply pack_bytes; exact T|exact Hl|]. rewrite (pack_bits fs _ T). exact E.
Qed.
Lemma programs_bytes r ps : 0 <= r < 8 -> Forall (fun p => w16 (fst p) /\ pid_ok (snd p)) ps -> bytes (flat_map (iso_program r) ps).
Proof.
  intros Hr H. induction H as [|[a b] ps [Ha Hb] H IH]; [constructor|]. cbn [flat_map]. apply bytes_app; split; [|exact IH].
  unfold iso_program. cbn [fst snd] in *. apply bytes_app; split; apply be16_bytes; [exact Ha|]. unfold w16, pid_ok in *. lia.
Qed.
Lemma fb_programs r3 ps : Forall (fun p => w16 (fst p) /\ pid_ok (snd p)) ps ->
  fbits (flat_map (fun p => [(fst p, 16%nat); (r3, 3%nat); (snd p, 13%nat)]) ps) = bytes_bits (flat_map (iso_program (r3 mod 8)) ps).
Proof.
  intros H. induction H as [|[a b] ps [Ha Hb] H IH]; [reflexivity|]. cbn [flat_map]. rewrite fbits_app, bytes_bits_app, IH. f_equal.
  unfold iso_program. cbn [fst snd] in *. rewrite bytes_bits_app, bits_be16, bits_3_13 by exact Hb. unfold fbits. cbn [flat_map fst snd].
  rewrite app_nil_r. f_equal. f_equal. symmetry. exact (field_bits_mod r3 3).
Qed.
Lemma with_crc_eq align sec : bytes sec -> with_crc align (zlen sec + 1) (0 :: sec ++ be32 0) = 0 :: sec ++ be32 (crc_spec sec).
Proof.
  intros H. unfold with_crc. cbn [skipn].
  assert (E : firstn (Z.to_nat (zlen sec + 1 + 3 - 4)) (sec ++ be32 0) = sec).
  { replace (Z.to_nat (zlen sec + 1 + 3 - 4)) with (length sec) by (unfold zlen; lia). rewrite firstn_app, Nat.sub_diag, firstn_all, firstn_O. apply app_nil_r. }
  rewrite E. rewrite crc_32_eq by (try exact H; unfold w32; lia). fold (crc_bits (bswap 0xFFFFFFFF) (bytes_bits sec)).
  change (bswap 4294967295) with 4294967295. fold (crc_spec sec).
  cbn [length app]. rewrite app_length. change (length (be32 0)) with 4%nat. replace (S (length sec + 4) - 4)%nat with (S (length sec)) by lia. cbn [firstn].
  rewrite firstn_app, Nat.sub_diag, firstn_all, firstn_O, app_nil_r. cbn [app]. f_equal. f_equal.
  apply pack_eq; [apply be32_bytes|]. rewrite bits_be32. unfold fbits. cbn [flat_map fst snd]. apply app_nil_r.
Qed.
Lemma write_pat_eq align r2 r3 ps : 4 * zlen ps < 4087 -> Forall (fun p => w16 (fst p) /\ pid_ok (snd p)) ps ->
  let sec := iso_section 0 8 1 ((r2 mod 4) * 64 + 1) 0 0 (flat_map (iso_program (r3 mod 8)) ps) in
  write_pat align r2 r3 ps = 0 :: sec ++ be32 (crc_spec sec) /\ bytes sec.
Proof.
  intros Hn H sec. pose proof (zlen_nonneg ps).
  assert (B : bytes sec).
  { apply iso_section_bytes; try (unfold is_byte; lia); try (unfold w16; lia). - apply programs_bytes; [lia|exact H]. - rewrite zlen_programs. lia. }
  split; [|exact B]. unfold write_pat. rewrite (pack_eq _ (0 :: sec ++ be32 0)).
  - replace (9 + 4 * zlen ps) with (zlen sec + 1) by (unfold sec; rewrite zlen_section, zlen_programs; lia). apply with_crc_eq. exact B.
  - apply bytes_cons; split; [unfold is_byte; lia|]. apply bytes_app. split; [exact B|apply be32_bytes].
  - rewrite bits_cons, bytes_bits_app, bits_be32. change (fbits ((0, 8%nat) :: pat_fields r2 r3 ps 0)) with (field_bits 0 8 ++ fbits (pat_fields r2 r3 ps 0)).
    f_equal. unfold pat_fields. rewrite !fbits_app. rewrite fb_base by (unfold is_byte; lia). rewrite fb_programs by exact H.
    unfold sec, iso_section. rewrite zlen_programs. replace (5 + 4 * zlen ps + 4) with (9 + 4 * zlen ps) by lia.
    change (fbits [(0, 32%nat)]) with (field_bits 0 32 ++ []). rewrite app_nil_r.
    rewrite !bits_cons, !bytes_bits_app. rewrite <- !app_assoc. reflexivity.
Qed.
Lemma fb_streams ss : Forall (fun s => is_byte (fst s) /\ pid_ok (snd s)) ss ->
  fbits (flat_map (fun s => [(fst s, 8%nat); (0, 3%nat); (snd s, 13%nat); (0, 4%nat); (0, 12%nat)]) ss) = bytes_bits (flat_map (iso_stream 0 0) (map (fun s => (fst s, snd s, [])) ss)).
Proof.
  intros H. induction H as [|[a b] ps [Ha Hb] H IH]; [reflexivity|]. cbn [map flat_map]. rewrite fbits_app, bytes_bits_app, IH. f_equal.
  unfold iso_stream. cbn [fst snd] in *. rewrite bits_cons, !bytes_bits_app, bits_3_13, bits_4_12 by (try exact Hb; cbn; lia). unfold fbits. cbn [flat_map fst snd].
  change (zlen (iso_descriptors [])) with 0. change (bytes_bits (iso_descriptors [])) with (@nil bool). rewrite <- !app_assoc. rewrite !app_nil_r. reflexivity.
Qed.
Lemma streams_bytes ss : Forall (fun s => is_byte (fst s) /\ pid_ok (snd s)) ss -> bytes (flat_map (iso_stream 0 0) (map (fun s => (fst s, snd s, [])) ss)).
Proof.
  intros H. induction H as [|[a b] ps [Ha Hb] H IH]; [constructor|]. cbn [map flat_map]. apply bytes_app; split; [|exact IH]. cbn [fst snd] in *.
  unfold iso_stream. apply bytes_cons; split; [exact Ha|]. unfold pid_ok in *. apply bytes_app; split; [apply be16_bytes; unfold w16; lia|]. apply bytes_app; split; [apply be16_bytes; unfold w16; cbn; lia|constructor].
Qed.
Lemma zlen_streams (ss : list (Z * Z)) : zlen (flat_map (iso_stream 0 0) (map (fun s => (fst s, snd s, [])) ss)) = 5 * zlen ss.
Proof. induction ss as [|s ss IH]; [reflexivity|]. cbn [map flat_map]. rewrite zlen_app, zlen_stream, IH, zlen_cons. change (zlen (iso_descriptors [])) with 0. lia. Qed.
Lemma zlen_pmt_body r1 r2 pcr info ss : zlen (iso_pmt_body r1 r2 pcr info ss) = 4 + zlen (iso_descriptors info) + zlen (flat_map (iso_stream r1 r2) ss).
Proof. unfold iso_pmt_body, be16. cbn [app]. rewrite !zlen_cons, zlen_app. lia. Qed.
Lemma write_pmt_eq align r2 id pcr ss : 5 * zlen ss < 4083 -> w16 id -> pid_ok pcr -> Forall (fun s => is_byte (fst s) /\ pid_ok (snd s)) ss ->
  let sec := iso_section 2 8 id ((r2 mod 4) * 64 + 1) 0 0 (iso_pmt_body 0 0 pcr [] (map (fun s => (fst s, snd s, [])) ss)) in
  write_pmt align r2 id pcr ss = 0 :: sec ++ be32 (crc_spec sec) /\ bytes sec.
Proof.
  intros Hn Hi Hp H sec. pose proof (zlen_nonneg ss).
  assert (L : zlen (iso_pmt_body 0 0 pcr [] (map (fun s => (fst s, snd s, [])) ss)) = 4 + 5 * zlen ss).
  { rewrite zlen_pmt_body, zlen_streams. change (zlen (iso_descriptors [])) with 0. lia. }
  assert (B : bytes sec).
  { apply iso_section_bytes; try (unfold is_byte; lia); try assumption; try lia. unfold pid_ok in Hp. unfold iso_pmt_body.
    apply bytes_app; split; [apply be16_bytes; unfold w16; lia|]. apply bytes_app; split; [apply be16_bytes; unfold w16; cbn; lia|]. apply streams_bytes. exact H. }
  split; [|exact B]. unfold write_pmt. rewrite (pack_eq _ (0 :: sec ++ be32 0)).
  - replace (13 + 5 * zlen ss) with (zlen sec + 1) by (unfold sec; rewrite zlen_section, L; lia). apply with_crc_eq. exact B.
  - apply bytes_cons; split; [unfold is_byte; lia|]. apply bytes_app. split; [exact B|apply be32_bytes].
  - rewrite bits_cons, bytes_bits_app, bits_be32. change (fbits ((0, 8%nat) :: pmt_fields r2 id pcr ss 0)) with (field_bits 0 8 ++ fbits (pmt_fields r2 id pcr ss 0)).
    f_equal. unfold pmt_fields. rewrite !fbits_app. rewrite fb_base by (unfold is_byte; lia). rewrite fb_streams by exact H.
    unfold sec, iso_section. rewrite L. replace (5 + (4 + 5 * zlen ss) + 4) with (13 + 5 * zlen ss) by lia.
    change (fbits [(0, 32%nat)]) with (field_bits 0 32 ++ []). rewrite app_nil_r.
    unfold iso_pmt_body. rewrite !bits_cons, !bytes_bits_app. rewrite bits_3_13 by exact Hp. change (zlen (iso_descriptors [])) with 0. rewrite !bits_4_12 by lia. change (bytes_bits (iso_descriptors [])) with (@nil bool). cbn [app].
    change (fbits [(0, 3%nat); (pcr, 13%nat); (0, 4%nat); (0, 12%nat)]) with (field_bits 0 3 ++ field_bits pcr 13 ++ field_bits 0 4 ++ field_bits 0 12 ++ []). rewrite app_nil_r.
    rewrite <- !app_assoc. reflexivity.
Qed.
