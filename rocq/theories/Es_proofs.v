(** Proofs for Es_model *)
From Coq Require Import ZifyNat.
From Verif Require Import Util Bits_spec Bits_lemmas SampleTab_model SampleTab_proofs TsTime_model Ts_model Ts_proofs Ts_proofs2 Box_model Box_proofs Es_model.
Local Open Scope Z_scope.
Local Ltac Zify.zify_post_hook ::= Z.div_mod_to_equations.

(** ** H.264 units *)
Lemma no_code_tl : forall a u, no_code (a :: u) -> no_code u.
Proof. intros a u H x b E. apply (H (a :: x) b). rewrite E. reflexivity. Qed.
Definition code_or_end (rest : list Z) : Prop := rest = [] \/ exists r, rest = 0 :: 0 :: 0 :: 1 :: r.
Lemma nal_bytes_cons4 : forall a b c d r, nal_bytes (a :: b :: c :: d :: r) =
  if ((a =? 0) && (b =? 0) && (c =? 1)) || ((a =? 0) && (b =? 0) && (c =? 0) && (d =? 1)) then ([], a :: b :: c :: d :: r) else let '(p, rest) := nal_bytes (b :: c :: d :: r) in (a :: p, rest).
Proof. reflexivity. Qed.
Lemma code_here : forall a b c, (a =? 0) && (b =? 0) && (c =? 1) = true -> a = 0 /\ b = 0 /\ c = 1. Proof. intros. rewrite !andb_true_iff, !Z.eqb_eq in H. tauto. Qed.
Lemma code_here4 : forall a b c d, (a =? 0) && (b =? 0) && (c =? 0) && (d =? 1) = true -> a = 0 /\ b = 0 /\ c = 0 /\ d = 1. Proof. intros. rewrite !andb_true_iff, !Z.eqb_eq in H. tauto. Qed.
Lemma nal_bytes_code : forall r, nal_bytes (0 :: 0 :: 0 :: 1 :: r) = ([], 0 :: 0 :: 0 :: 1 :: r). Proof. reflexivity. Qed.
Lemma nal_bytes_app : forall u rest, no_code u -> code_or_end rest -> nal_bytes (u ++ rest) = (u, rest).
Proof.
  induction u as [|a u IH]; intros rest N CE.
  - destruct CE as [-> | (r & ->)]; reflexivity.
  - specialize (IH rest (no_code_tl _ _ N) CE). cbn [app].
    assert (STEP : forall b c d r, u ++ rest = b :: c :: d :: r -> ~ (a = 0 /\ b = 0 /\ c = 1) -> ~ (a = 0 /\ b = 0 /\ c = 0 /\ d = 1) -> nal_bytes (a :: u ++ rest) = (a :: u, rest)).
    { intros b c d r E X Y. rewrite E, nal_bytes_cons4, <- E, IH. destruct (_ || _) eqn:Q; [|reflexivity]. apply orb_true_iff in Q as [Q|Q]; [apply code_here in Q|apply code_here4 in Q]; tauto. }
    destruct u as [|b [|c [|d u]]]; cbn [app] in *.
    + destruct CE as [-> | (r & ->)]; [reflexivity|]. eapply STEP; [reflexivity|lia|lia].
    + destruct CE as [-> | (r & ->)]; [reflexivity|]. eapply STEP; [reflexivity|lia|lia].
    + destruct CE as [-> | (r & ->)]; [reflexivity|]. eapply STEP; [reflexivity| |lia]. intros (-> & -> & ->). exact (N [] [] eq_refl).
    + eapply STEP; [reflexivity| |]; [intros (-> & -> & ->); exact (N [] (d :: u) eq_refl)|intros (-> & -> & -> & ->); exact (N [0] u eq_refl)].
Qed.
Lemma annex_code : forall us, code_or_end (annex_b us).
Proof. intros [|u us]; [left; reflexivity|right]. exists (u ++ annex_b us). reflexivity. Qed.
Lemma split_nals_S : forall n l, l <> [] -> split_nals (S n) l = match skipn 3 (find_code l) with [] => None | (h :: _) as r => let '(p, rest) := nal_bytes r in match split_nals n rest with Some u => Some ((Z.land 31 h, p) :: u) | None => None end end.
Proof. intros n [|x l] H; [congruence|reflexivity]. Qed.
Lemma low5 : forall h, Z.land 31 h = h mod 32. Proof. intros h. rewrite Z.land_comm. change 31 with (Z.ones 5). apply Z.land_ones. lia. Qed.
Lemma split_annex : forall us n, Forall (fun u => u <> [] /\ no_code u) us -> (length us <= n)%nat -> split_nals n (annex_b us) = Some (map (fun u => (nal_type u, u)) us).
Proof.
  induction us as [|u us IH]; intros n F L; [destruct n; reflexivity|]. destruct n as [|n]; [cbn in L; lia|]. inversion F as [|? ? [NE NC] F']. subst.
  change (annex_b (u :: us)) with (0 :: 0 :: 0 :: 1 :: u ++ annex_b us). rewrite split_nals_S by discriminate.
  change (skipn 3 (find_code (0 :: 0 :: 0 :: 1 :: u ++ annex_b us))) with (u ++ annex_b us).
  destruct u as [|h u]; [congruence|]. change ((h :: u) ++ annex_b us) with (h :: u ++ annex_b us). cbv iota.
  replace (nal_bytes (h :: u ++ annex_b us)) with (h :: u, annex_b us) by (symmetry; exact (nal_bytes_app (h :: u) _ NC (annex_code us))). cbv beta iota. rewrite (IH n F') by (cbn in L; lia). cbn [map]. unfold nal_type at 2. cbn [hd]. rewrite low5. reflexivity.
Qed.
Lemma annex_length : forall us, (length us <= length (annex_b us))%nat.
Proof. induction us as [|u us IH]; [cbn; lia|]. change (annex_b (u :: us)) with ((code4 ++ u) ++ annex_b us). rewrite app_length, app_length. cbn [length code4]. lia. Qed.
Lemma units_annex : forall us, Forall (fun u => u <> [] /\ no_code u) us -> units_of (annex_b us) = Some (map (fun u => (nal_type u, u)) us).
Proof. intros us F. apply split_annex; [exact F|apply annex_length]. Qed.
(** ** writing *)
Lemma put_nals_S : forall n s, s <> [] -> put_nals (S n) s = let size := be_val 0 (firstn 4 s) in
    if (length s <? 4)%nat || (zlen s - 4 <? size) then None
    else match put_nals n (skipn (4 + Z.to_nat size) s) with Some r => Some (code4 ++ firstn (Z.to_nat size) (skipn 4 s) ++ r) | None => None end.
Proof. intros n [|x l] H; [congruence|reflexivity]. Qed.
Lemma be_4 : forall x, exists a b c d, be 4 x = [a; b; c; d]. Proof. intros. eexists _, _, _, _. reflexivity. Qed.
Lemma put_avcc : forall us n, Forall (fun u => zlen u < 2 ^ 32) us -> (length us <= n)%nat -> put_nals n (avcc us) = Some (annex_b us).
Proof.
  induction us as [|u us IH]; intros n F L; [destruct n; reflexivity|]. destruct n as [|n]; [cbn in L; lia|]. inversion F as [|? ? B F']. subst.
  change (avcc (u :: us)) with ((be 4 (zlen u) ++ u) ++ avcc us). rewrite <- app_assoc.
  assert (V : be_val 0 (be 4 (zlen u)) = zlen u) by (rewrite be_val_be; [lia|unfold zlen in *; lia]).
  destruct (be_4 (zlen u)) as (a & b & c & d & E). rewrite E in *. cbn [app]. rewrite put_nals_S by discriminate.
  cbv zeta. change (firstn 4 (a :: b :: c :: d :: u ++ avcc us)) with [a; b; c; d]. rewrite V. change (skipn 4 (a :: b :: c :: d :: u ++ avcc us)) with (u ++ avcc us).
  destruct (Nat.ltb_spec (length (a :: b :: c :: d :: u ++ avcc us)) 4) as [Q|_]; [cbn [length] in Q; lia|]. destruct (Z.ltb_spec (zlen (a :: b :: c :: d :: u ++ avcc us) - 4) (zlen u)) as [Q|_]; [unfold zlen in Q; cbn [length] in Q; rewrite app_length in Q; lia|]. cbn [orb].
  unfold zlen. rewrite Nat2Z.id. change (skipn (4 + length u) (a :: b :: c :: d :: u ++ avcc us)) with (skipn (length u) (u ++ avcc us)). rewrite skipn_app, skipn_all, Nat.sub_diag. cbn [skipn app].
  rewrite IH by (try exact F'; cbn in L; lia). rewrite firstn_app, firstn_all, Nat.sub_diag. cbn [firstn]. rewrite app_nil_r. reflexivity.
Qed.
Lemma avcc_length : forall us, (length us <= length (avcc us))%nat.
Proof. induction us as [|u us IH]; [cbn; lia|]. change (avcc (u :: us)) with ((be 4 (zlen u) ++ u) ++ avcc us). rewrite app_length, app_length, be_length. cbn [length]. lia. Qed.
Lemma access_unit_ok : forall sps pps k us, Forall (fun u => zlen u < 2 ^ 32) us ->
  access_unit sps pps k (avcc us) = Some (annex_b ([9; 0xf0] :: (if k then [sps; pps] else []) ++ us)).
Proof.
  intros sps pps k us F. unfold access_unit. rewrite put_avcc by (try exact F; apply avcc_length). unfold nal9, parameter_sets, annex_b, code4. destruct k; cbn [map concat app]; rewrite ?app_nil_r, <- ?app_assoc; reflexivity.
Qed.
(** the samples read *)
Definition step (s : vstate) (us : list (list Z)) : vstate := fold_left nal_payload (map (fun u => (nal_type u, u)) us) s.
Lemma step_cons : forall s u us, step s (u :: us) = step (nal_payload s (nal_type u, u)) us. Proof. reflexivity. Qed.
Lemma step_app : forall us s vs, step s (us ++ vs) = step (step s us) vs. Proof. intros. unfold step. rewrite map_app, fold_left_app. reflexivity. Qed.
Lemma picture_cons : forall u us, picture_units (u :: us) = if negb ((nal_type u =? 7) || (nal_type u =? 8) || (nal_type u =? 9)) then u :: picture_units us else picture_units us. Proof. reflexivity. Qed.
Lemma avcc_cons : forall u us, avcc (u :: us) = be 4 (zlen u) ++ u ++ avcc us. Proof. intros. unfold avcc. cbn [map concat]. rewrite <- app_assoc. reflexivity. Qed.
Lemma step_open : forall us s, v_open s = true -> v_sps s <> [] -> v_pps s <> [] -> step s us = mkV (v_sps s) (v_pps s) true (v_sample s ++ avcc (picture_units us)).
Proof.
  induction us as [|u us IH]; intros [a b o x] O A B; cbn [v_sps v_pps v_open v_sample] in *; subst o.
  - unfold step. cbn [map fold_left picture_units filter avcc concat]. rewrite app_nil_r. reflexivity.
  - rewrite step_cons, picture_cons. cbn [nal_payload v_sps v_pps v_open v_sample]. destruct (Z.eqb_spec (nal_type u) 9) as [E|N9].
    + rewrite IH by (cbn; auto). rewrite orb_true_r. reflexivity.
    + destruct (Z.eqb_spec (nal_type u) 7) as [E|N7].
      * destruct a as [|a0 a]; [congruence|]. rewrite IH by (cbn; auto). reflexivity.
      * destruct (Z.eqb_spec (nal_type u) 8) as [E|N8]; [destruct b as [|b0 b]; [congruence|]; rewrite IH by (cbn; auto); reflexivity|].
        rewrite IH by (cbn; auto). cbn [v_sps v_pps v_open v_sample orb negb]. rewrite avcc_cons, <- !app_assoc. reflexivity.
Qed.
Lemma fold_step : forall s us, fold_left nal_payload (map (fun u => (nal_type u, u)) us) s = step s us. Proof. reflexivity. Qed.
(** ** AAC *)
Lemma pack_sync : forall v p fs, exists b r, pack ([(0xFFF, 12%nat); (v, 1%nat); (0, 2%nat); (p, 1%nat)] ++ fs) = 255 :: b :: r /\ b / 16 = 15.
Proof.
  intros v p fs. unfold pack. rewrite flat_map_app, (to_bytes_app 2) by reflexivity.
  assert (E : exists b1 b2, flat_map (fun f => field_bits (fst f) (snd f)) [(0xFFF, 12%nat); (v, 1%nat); (0, 2%nat); (p, 1%nat)] = [true;true;true;true;true;true;true;true;true;true;true;true;b1;false;false;b2]).
  { eexists _, _. reflexivity. }
  destruct E as (b1 & b2 & ->). eexists _, _. split; [reflexivity|]. destruct b1, b2; reflexivity.
Qed.
Definition hdr (v absent o r p c a1 a2 a3 a4 len full n : Z) : list (Z * nat) :=
  [(0xFFF, 12%nat); (v, 1%nat); (0, 2%nat); (absent, 1%nat); (o, 2%nat); (r, 4%nat); (p, 1%nat); (c, 3%nat); (a1, 1%nat); (a2, 1%nat); (a3, 1%nat); (a4, 1%nat); (len, 13%nat); (full, 11%nat); (n, 2%nat)].
Lemma get_hdr : forall v absent o r p c a1 a2 a3 a4 len full n rest, 
  get_adts (pack (hdr v absent o r p c a1 a2 a3 a4 len full n) ++ rest) =
  let h := if absent mod 2 =? 0 then 9 else 7 in mkAdts (o mod 4 + 1) (nth (Z.to_nat (r mod 16)) rates 0) (nth (Z.to_nat (c mod 8)) channels 0) (u32 (len mod 8192 - h)) (Z.to_nat h).
Proof.
  intros. unfold get_adts. set (fs := hdr v absent o r p c a1 a2 a3 a4 len full n).
  assert (T : total (map snd fs) = (8 * 7)%nat) by reflexivity. pose proof (pack_length fs 7 T) as L.
  assert (FI : firstn 7 (pack fs ++ rest) = pack fs) by (rewrite firstn_app, L, Nat.sub_diag, firstn_O, app_nil_r; apply firstn_all2; lia). rewrite FI, (pack_bits fs 7 T).
  change ([12; 1; 2; 1; 2; 4; 1; 3; 1; 1; 1; 1; 13; 11; 2]%nat) with (map snd fs). unfold fbits. rewrite <- (app_nil_r (flat_map _ fs)). rewrite fields_concat. reflexivity.
Qed.
Lemma hdr_sync : forall v absent o r p c a1 a2 a3 a4 len full n rest, find_sync (pack (hdr v absent o r p c a1 a2 a3 a4 len full n) ++ rest) = pack (hdr v absent o r p c a1 a2 a3 a4 len full n) ++ rest.
Proof.
  intros. destruct (pack_sync v absent [(o, 2%nat); (r, 4%nat); (p, 1%nat); (c, 3%nat); (a1, 1%nat); (a2, 1%nat); (a3, 1%nat); (a4, 1%nat); (len, 13%nat); (full, 11%nat); (n, 2%nat)]) as (b & q & E & B).
  unfold hdr. cbn [app] in E. rewrite E. cbn [app find_sync]. rewrite B. reflexivity.
Qed.
Lemma split_aac_S : forall n l, l <> [] -> split_aac (S n) l =
    let r := find_sync l in
    if (length r <? 9)%nat then []
    else
      let a := get_adts r in
      let r := skipn (a_header a) r in
      if (a_body a =? 0) || ((zlen r <? a_body a) && negb ((a_body a =? 1) && (zlen r =? 0))) then []
      else (a, firstn (Z.to_nat (a_body a)) r) :: split_aac n (skipn (Z.to_nat (a_body a)) r).
Proof. intros n [|x l] H; [congruence|reflexivity]. Qed.
(** what the reader gives for a frame *)
Definition read_back (x : adts_frame) : adts * list Z :=
  (mkAdts (af_object x) (nth (Z.to_nat (af_ri x)) rates 0) (nth (Z.to_nat (af_ci x)) channels 0) (zlen (af_frame x)) (7 + length (af_crc x)), af_frame x).
Lemma split_adts : forall xs n, Forall adts_frame_ok xs -> (length xs <= n)%nat -> split_aac n (concat (map adts_bytes xs)) = map read_back xs.
Proof.
  induction xs as [|x xs IH]; intros n F L; [destruct n; reflexivity|]. destruct n as [|n]; [cbn in L; lia|]. inversion F as [|? ? O F']. subst. destruct O as (OB & RI & CI & CRC & FR & LEN).
  cbn [map concat]. set (rest := concat (map adts_bytes xs)) in *. unfold adts_bytes. set (absent := match af_crc x with [] => 1 | _ => 0 end).
  match goal with |- context [pack ?fs] => change fs with (hdr (af_version x) absent (af_object x - 1) (af_ri x) (af_private x) (af_ci x) (af_original x) (af_home x) (af_copyright x) (af_copyright_start x) (7 + zlen (af_crc x) + zlen (af_frame x)) (af_full x) 0) end.
  match goal with |- context [pack (hdr ?a ?b ?c ?d ?e ?f ?g ?h ?i ?j ?k ?l ?m)] =>
    pose proof (hdr_sync a b c d e f g h i j k l m ((af_crc x ++ af_frame x) ++ rest)) as SY; pose proof (get_hdr a b c d e f g h i j k l m ((af_crc x ++ af_frame x) ++ rest)) as GE;
    pose proof (pack_length (hdr a b c d e f g h i j k l m) 7 eq_refl) as PL; set (P := pack (hdr a b c d e f g h i j k l m)) in * end.
  assert (PNE : (P ++ af_crc x ++ af_frame x) ++ rest <> []) by (destruct P; [cbn in PL; lia|discriminate]).
  rewrite split_aac_S by exact PNE. rewrite <- app_assoc. rewrite SY. cbv zeta in *. rewrite GE. cbn [a_body a_header].
  assert (HD : (if absent mod 2 =? 0 then 9 else 7) = 7 + zlen (af_crc x)). { destruct CRC as [E|E]; unfold absent; [rewrite E; reflexivity|]. unfold zlen. rewrite E. destruct (af_crc x); [discriminate E|reflexivity]. }
  rewrite HD. assert (BO : u32 ((7 + zlen (af_crc x) + zlen (af_frame x)) mod 8192 - (7 + zlen (af_crc x))) = zlen (af_frame x)) by (rewrite (Z.mod_small (7 + _ + _)) by (unfold zlen in *; lia); rewrite u32_id by (unfold zlen in *; lia); lia).
  rewrite BO. assert (HN : Z.to_nat (7 + zlen (af_crc x)) = length (P ++ af_crc x)) by (rewrite app_length, PL; unfold zlen; lia).
  rewrite HN. rewrite <- app_assoc, (app_assoc P). rewrite skipn_app, skipn_all, Nat.sub_diag. cbn [skipn app].
  destruct (Nat.ltb_spec (length ((P ++ af_crc x) ++ af_frame x ++ rest)) 9) as [Q|_]; [rewrite !app_length, PL in Q; unfold zlen in LEN; lia|].
  destruct (Z.eqb_spec (zlen (af_frame x)) 0); [lia|]. destruct (Z.ltb_spec (zlen (af_frame x ++ rest)) (zlen (af_frame x))) as [Q|_]; [unfold zlen in Q; rewrite app_length in Q; lia|]. cbn [orb andb].
  unfold zlen at 2 3. rewrite Nat2Z.id. rewrite firstn_app, firstn_all, skipn_app, skipn_all, Nat.sub_diag. cbn [firstn skipn app]. rewrite app_nil_r. rewrite (IH n F') by (cbn in L; lia). unfold read_back at 2.
  f_equal. f_equal. rewrite (Z.mod_small (af_object x - 1)), (Z.mod_small (af_ri x)), (Z.mod_small (af_ci x)) by lia. f_equal; try lia; rewrite app_length, PL; reflexivity.
Qed.
Lemma adts_length : forall xs, (length xs <= length (concat (map adts_bytes xs)))%nat.
Proof.
  induction xs as [|x xs IH]; [cbn; lia|]. cbn [map concat length]. rewrite app_length. unfold adts_bytes at 1. rewrite app_length. rewrite (pack_length _ 7) by reflexivity. lia.
Qed.
Lemma frames_adts : forall xs, Forall adts_frame_ok xs -> frames_of (concat (map adts_bytes xs)) = map read_back xs.
Proof. intros xs F. apply split_adts; [exact F|apply adts_length]. Qed.
(** the writer *)
Lemma code_of_nth : forall x l c, code_of x l = Some c -> 0 <= c < zlen l /\ nth (Z.to_nat c) l 0 = x.
Proof.
  induction l as [|y l IH]; intros c H; [discriminate H|]. cbn [code_of] in H. destruct (Z.eqb_spec x y) as [E|N].
  - injection H as <-. subst. split; [unfold zlen; cbn; lia|reflexivity].
  - destruct (code_of x l) as [k|]; [|discriminate H]. cbn [option_map] in H. assert (Q : c = 1 + k) by congruence. subst c. clear H. destruct (IH k eq_refl) as [B E]. unfold zlen in *. cbn [length]. split; [lia|]. replace (Z.to_nat (1 + k)) with (S (Z.to_nat k)) by lia. exact E.
Qed.
Lemma code_of_some : forall x l, In x l -> exists c, code_of x l = Some c.
Proof. induction l as [|y l IH]; intros H; [destruct H|]. cbn [code_of]. destruct (Z.eqb_spec x y) as [E|N]; [eauto|]. destruct H as [H|H]; [congruence|]. destruct (IH H) as [c ->]. eexists. reflexivity. Qed.
Lemma aac_unit_hdr : forall object rate chan f r c, code_of rate rates = Some r -> code_of chan channels = Some c ->
  aac_unit object rate chan f = Some (pack (hdr 0 1 (u32 (object - 1)) r 0 c 0 0 0 0 (u32 (zlen f + 7)) 0x7FF 0) ++ f).
Proof. intros. unfold aac_unit, adts_header. rewrite H, H0. reflexivity. Qed.
Lemma aac_unit_adts : forall object rate chan f, 1 <= object <= 4 -> In rate rates -> In chan channels -> is_frame f -> exists x, aac_unit object rate chan f = Some (adts_bytes x) /\ adts_frame_ok x /\ read_back x = (mkAdts object rate chan (zlen f) 7, f).
Proof.
  intros object rate chan f O R C [BF LF]. destruct (code_of_some _ _ R) as [r Hr]. destruct (code_of_some _ _ C) as [c Hc]. destruct (code_of_nth _ _ _ Hr) as [Br Er]. destruct (code_of_nth _ _ _ Hc) as [Bc Ec]. change (zlen rates) with 13 in Br. change (zlen channels) with 8 in Bc.
  exists (mkFrame 0 object r 0 c 0 0 0 0 0x7FF [] f). rewrite (aac_unit_hdr object rate chan f r c Hr Hc). split; [|split].
  - unfold adts_bytes. cbn [af_version af_object af_ri af_private af_ci af_original af_home af_copyright af_copyright_start af_full af_crc af_frame app]. rewrite !u32_id by lia. change (zlen []) with 0. replace (7 + 0 + zlen f) with (zlen f + 7) by lia. reflexivity.
  - unfold adts_frame_ok. cbn [af_version af_object af_ri af_private af_ci af_original af_home af_copyright af_copyright_start af_full af_crc af_frame]. change (zlen []) with 0. split; [lia|]. split; [lia|]. split; [lia|]. split; [left; reflexivity|]. lia.
  - unfold read_back. cbn [af_version af_object af_ri af_private af_ci af_original af_home af_copyright af_copyright_start af_full af_crc af_frame]. rewrite Er, Ec. reflexivity.
Qed.
Lemma aac_unit_any : forall object rate chan f u, aac_unit object rate chan f = Some u -> exists r c, code_of rate rates = Some r /\ code_of chan channels = Some c /\ u = pack (hdr 0 1 (u32 (object - 1)) r 0 c 0 0 0 0 (u32 (zlen f + 7)) 0x7FF 0) ++ f.
Proof.
  intros object rate chan f u H. destruct (code_of rate rates) as [r|] eqn:R; [|unfold aac_unit, adts_header in H; rewrite R in H; discriminate H]. destruct (code_of chan channels) as [c|] eqn:C; [|unfold aac_unit, adts_header in H; rewrite R, C in H; discriminate H].
  rewrite (aac_unit_hdr object rate chan f r c R C) in H. injection H as <-. eauto.
Qed.
(** one unit read: the first frame *)
Lemma frames_one : forall object rate chan f u, aac_unit object rate chan f = Some u -> zlen f < 2 ^ 32 - 7 ->
  let b := u32 ((zlen f + 7) mod 8192 - 7) in
  frames_of u = if (zlen f <? 2) || (zlen f <? b) then [] else if b =? 0 then [] else (mkAdts (u32 (object - 1) mod 4 + 1) rate chan b 7, firstn (Z.to_nat b) f) :: split_aac (length u - 1) (skipn (Z.to_nat b) f).
Proof.
  intros object rate chan f u H B. destruct (aac_unit_any _ _ _ _ _ H) as (r & c & R & C & E). destruct (code_of_nth _ _ _ R) as [Br Er]. destruct (code_of_nth _ _ _ C) as [Bc Ec]. change (zlen rates) with 13 in Br. change (zlen channels) with 8 in Bc. cbv zeta.
  rewrite (u32_id (zlen f + 7)) in E by (unfold zlen in *; lia). remember (hdr 0 1 (u32 (object - 1)) r 0 c 0 0 0 0 (zlen f + 7) 0x7FF 0) as h eqn:Hh.
  assert (PL : length (pack h) = 7%nat) by (subst h; apply (pack_length _ 7); reflexivity).
  assert (LU : length u = S (6 + length f)) by (rewrite E, app_length, PL; lia). unfold frames_of. rewrite LU at 1. rewrite split_aac_S by (intros Q; rewrite Q in LU; discriminate LU).
  cbv zeta. assert (SY : find_sync u = u) by (rewrite E, Hh; apply hdr_sync). rewrite SY.
  assert (GE : get_adts u = mkAdts (u32 (object - 1) mod 4 + 1) rate chan (u32 ((zlen f + 7) mod 8192 - 7)) 7).
  { rewrite E, Hh, get_hdr. cbv zeta. change (1 mod 2 =? 0) with false. cbv iota. rewrite (Z.mod_small r), (Z.mod_small c) by lia. rewrite Er, Ec. reflexivity. }
  rewrite GE. cbn [a_body a_header]. assert (SK : skipn 7 u = f) by (rewrite E, <- PL, skipn_app, skipn_all, Nat.sub_diag; reflexivity). rewrite SK, LU.
  replace (S (6 + length f) - 1)%nat with (6 + length f)%nat by lia. destruct (Nat.ltb_spec (S (6 + length f)) 9) as [Q|Q]; destruct (Z.ltb_spec (zlen f) 2) as [Q'|Q']; try (unfold zlen in *; lia); [reflexivity|]. cbn [orb].
  destruct (Z.eqb_spec (u32 ((zlen f + 7) mod 8192 - 7)) 0) as [Z0|NZ]; cbn [orb]; [destruct (_ <? _); reflexivity|].
  destruct (Z.ltb_spec (zlen f) (u32 ((zlen f + 7) mod 8192 - 7))) as [S1|S1]; cbn [andb]; [|reflexivity]. destruct (Z.eqb_spec (u32 ((zlen f + 7) mod 8192 - 7)) 1); destruct (Z.eqb_spec (zlen f) 0); cbn [andb negb]; try reflexivity. lia.
Qed.
