(** Proofs for Ts_model: PES reassembly. *)
From Coq Require Import ZifyNat.
From Verif Require Import Util Bits_spec Bits_lemmas TsTime_model TsTime_proofs Ts_model Ts_proofs Ts_proofs2 Ts_proofs3.
Local Open Scope Z_scope.
Local Ltac Zify.zify_post_hook ::= Z.div_mod_to_equations.

Definition u_hdl u := header_data_length (u_pts u) (u_dts u) (u_escr u).
Definition u_len u := packet_length (u_pts u) (u_dts u) (u_escr u) (zlen (u_body u)).
Definition u_hdr u := pes_header (u_r u) (u_mk u) (u_sid u) (u_pts u) (u_dts u) (u_escr u) (zlen (u_body u)).
Lemma u_bytes_eq u : u_bytes u = u_hdr u ++ u_body u.
Proof. unfold u_bytes, u_hdr. reflexivity. Qed.
Definition u_rb u := read_back (u_sid u) (u_pts u) (u_dts u) (u_escr u) (zlen (u_body u)).
Definition bounded u := 0 < u_len u < 65536.
Definition unbounded u := u_len u = 0.

Lemma to_bytes_one (a : Z) r : to_bytes (field_bits a 8 ++ r) = a mod 256 :: to_bytes r.
Proof. rewrite to_bytes_cons8 by apply field_bits_length. rewrite bits_val_field. reflexivity. Qed.
Lemma hdr_head u : exists tl, u_hdr u = 0 :: 0 :: 1 :: (u_sid u mod 256) :: (u_len u / 256 mod 256) :: (u_len u mod 256) :: tl.
Proof.
  unfold u_hdr. change (pes_header _ _ _ _ _ _ _) with (pack (hdr_fields (u_r u) (u_mk u) (u_sid u) (u_pts u) (u_dts u) (u_escr u) (zlen (u_body u)))).
  unfold pack, hdr_fields. cbn [flat_map app fst snd]. fold (u_len u).
  change (field_bits 1 24) with (field_bits 0 8 ++ field_bits 0 8 ++ field_bits 1 8). rewrite <- !app_assoc. rewrite !to_bytes_one.
  change (field_bits (u_len u) 16) with (field_bits (u_len u) (8 + 8)). rewrite field_bits_split, <- !app_assoc, !to_bytes_one.
  change (2 ^ Z.of_nat 8) with 256. eexists. reflexivity.
Qed.
Lemma u_bytes_len u : zlen (u_bytes u) = 9 + u_hdl u + zlen (u_body u).
Proof. rewrite u_bytes_eq. unfold u_hdr. rewrite zlen_app, hdr_length. reflexivity. Qed.
Lemma u_hdl_range u : 0 <= u_hdl u <= 16.
Proof. apply hdl_range. Qed.
Lemma bounded_total u : bounded u -> zlen (u_bytes u) = u_len u + 6.
Proof.
  unfold bounded. rewrite u_bytes_len. unfold u_len, packet_length, u_hdl. destruct ((zlen (u_body u) =? 0) || (MAX_PES_SIZE <=? zlen (u_body u))); lia.
Qed.
Lemma u_body_skip u : skipn (Z.to_nat (9 + p_hlen (u_rb u))) (u_bytes u) = u_body u.
Proof.
  change (p_hlen (u_rb u)) with (u_hdl u). assert (L : zlen (u_hdr u) = 9 + u_hdl u) by (unfold u_hdr, u_hdl; apply hdr_length).
  rewrite u_bytes_eq, skipn_app, skipn_all2 by (unfold zlen in L; lia). replace (_ - _)%nat with 0%nat by (unfold zlen in L; lia). reflexivity.
Qed.
Lemma get_u u : u_ok u -> exists r, get_pes (bytes_bits (u_bytes u)) = Some (u_rb u, r).
Proof. intros (H1 & H2 & H3 & _). rewrite u_bytes_eq, bytes_bits_app. unfold u_hdr, u_rb. eexists. apply get_pes_header; assumption. Qed.

(** a prefix of six bytes or more *)
Lemma prefix_head u x y : u_bytes u = x ++ y -> 6 <= zlen x -> exists tl, x = 0 :: 0 :: 1 :: (u_sid u mod 256) :: (u_len u / 256 mod 256) :: (u_len u mod 256) :: tl.
Proof.
  intros E L. destruct (hdr_head u) as (tl & H). rewrite u_bytes_eq, H in E. unfold zlen in L.
  destruct x as [|x0 [|x1 [|x2 [|x3 [|x4 [|x5 x]]]]]]; cbn [length] in L; try lia. cbn [app] in E. injection E as <- <- <- <- <- <- _. eexists; reflexivity.
Qed.
Lemma head_fields6 s l tl : 0 <= l < 65536 -> 0 <= s < 256 -> fields [24; 8; 16]%nat (bytes_bits (firstn 6 (0 :: 0 :: 1 :: s :: (l / 256 mod 256) :: (l mod 256) :: tl))) = [1; s; l].
Proof.
  intros Hl Hs. cbn [firstn]. pose (fs := [(1, 24%nat); (s, 8%nat); (l, 16%nat)]).
  assert (E : bytes_bits [0; 0; 1; s; l / 256 mod 256; l mod 256] = fbits fs).
  { unfold bytes_bits, byte_bits, fbits, fs. cbn [flat_map fst snd]. rewrite !app_nil_r. change (field_bits l 16) with (field_bits l (8 + 8)). rewrite field_bits_split.
    change 256 with (2 ^ Z.of_nat 8). rewrite !field_bits_mod. reflexivity. }
  rewrite E. pose proof (fields_concat fs []) as Q. rewrite app_nil_r in Q. fold (fbits fs) in Q. change (map snd fs) with [24; 8; 16]%nat in Q. rewrite Q. unfold fs. cbn [map fst snd].
  change (2 ^ Z.of_nat 24) with 16777216. change (2 ^ Z.of_nat 8) with 256. change (2 ^ Z.of_nat 16) with 65536. rewrite !Z.mod_small by lia. reflexivity.
Qed.

Lemma process_prefix u s y : u_ok u -> u_bytes u = s_payload s ++ y -> unbounded u \/ (bounded u /\ y <> []) -> process s = (s, []).
Proof.
  intros (_ & _ & _ & Hsid) E HB. unfold process. destruct (Z.ltb_spec (zlen (s_payload s)) 6) as [L|L]; [reflexivity|].
  destruct (prefix_head u _ y E L) as (tl & Hx).
  assert (LR : 0 <= u_len u < 65536) by (unfold unbounded, bounded in HB; lia).
  rewrite Hx at 1. cbn [nextcode Z.eqb andb Pos.eqb]. rewrite head_fields6 by lia. rewrite <- Hx at 1.
  destruct (Z.ltb_spec (zlen (s_payload s)) 6); [lia|].
  destruct HB as [HB|[HB Hy]].
  - rewrite HB. reflexivity.
  - unfold bounded in HB. destruct (Z.eqb_spec (u_len u) 0); [lia|].
    replace (zlen _ <? u_len u + 6) with true; [reflexivity|]. symmetry. apply Z.ltb_lt. rewrite <- Hx.
    pose proof (bounded_total u HB) as T. rewrite E, zlen_app in T. destruct y; [congruence|]. rewrite zlen_cons in T. pose proof (zlen_nonneg y). lia.
Qed.
Lemma process_full u s : u_ok u -> bounded u -> s_payload s = u_bytes u -> (s_sid s = 0 \/ s_sid s = u_sid u) ->
  process s = (mkps (u_bytes u) (s_gotfirst s) true (Some (u_rb u)) (u_sid u), [Received (u_body u)]).
Proof.
  intros Hu HB E Hsid. pose proof (bounded_total u HB) as T. pose proof Hu as (_ & _ & _ & Hs). unfold process.
  pose proof (u_bytes_len u) as TL. pose proof (u_hdl_range u). pose proof (zlen_nonneg (u_body u)). rewrite E.
  destruct (Z.ltb_spec (zlen (u_bytes u)) 6) as [L|L]; [lia|].
  destruct (prefix_head u (u_bytes u) [] (eq_sym (app_nil_r _)) L) as (tl & Hx). destruct (get_u u Hu) as (r & G).
  unfold bounded in HB.
  assert (N : nextcode (u_bytes u) = Some (u_bytes u)) by (rewrite Hx; reflexivity). rewrite N.
  assert (F : fields [24; 8; 16]%nat (bytes_bits (firstn 6 (u_bytes u))) = [1; u_sid u; u_len u]).
  { rewrite Hx. rewrite (Z.mod_small (u_sid u)) by lia. apply head_fields6; lia. }
  rewrite F. destruct (Z.ltb_spec (zlen (u_bytes u)) 6); [lia|]. destruct (Z.eqb_spec (u_len u) 0); [lia|].
  destruct (Z.ltb_spec (zlen (u_bytes u)) (u_len u + 6)); [lia|]. rewrite G.
  assert (R : forall a g h z, a = u_bytes u -> receive (mkps a g h (Some (u_rb u)) z) = Received (u_body u)).
  { intros a g h z ->. unfold receive, last_hlen. cbn [s_data s_payload]. rewrite u_body_skip. reflexivity. }
  destruct Hsid as [Z0|Z0]; rewrite Z0.
  - cbn [Z.eqb]. rewrite R by reflexivity. reflexivity.
  - destruct (Z.eqb_spec (u_sid u) 0); [lia|]. rewrite Z.eqb_refl. rewrite R by reflexivity. reflexivity.
Qed.

(** packets *)
Definition ok_tp (t : tp) : Prop := t_tei t = 0 /\ t_pay t = 1 /\ (t_af t = 1 -> t_aflen t <= 183) /\ t_payload t <> [].
Definition flush (s : pstate) : pstate * list pevent := if s_gotfirst s then before_unit_start s else (s, []).

Lemma add_cont s t : ok_tp t -> t_pusi t = 0 -> add s t = process (mkps (s_payload s ++ t_payload t) true (s_has s) (s_data s) (s_sid s)).
Proof.
  intros (T & P & A & N) U. unfold add. rewrite T, U, P. cbn [Z.eqb andb Pos.eqb].
  assert (E : (t_af t =? 1) && (183 <? t_aflen t) = false).
  { destruct (Z.eqb_spec (t_af t) 1) as [Ha|Ha]; [|reflexivity]. cbn [andb]. apply Z.ltb_ge. auto. }
  rewrite E. destruct (t_payload t) as [|b l] eqn:Et; [congruence|]. cbn [negb]. rewrite orb_true_r. destruct (process _) as [s3 e3]. reflexivity.
Qed.
Lemma add_first s t : ok_tp t -> t_pusi t = 1 -> add s t = let '(s1, e1) := flush s in
  let '(s3, e3) := process (mkps (t_payload t) true (s_has s1) (s_data s1) (s_sid s1)) in (s3, e1 ++ e3).
Proof.
  intros (T & P & A & N) U. unfold add, flush. rewrite T, U, P. cbn [Z.eqb andb Pos.eqb].
  assert (E : (t_af t =? 1) && (183 <? t_aflen t) = false).
  { destruct (Z.eqb_spec (t_af t) 1) as [Ha|Ha]; [|reflexivity]. cbn [andb]. apply Z.ltb_ge. auto. }
  rewrite E. destruct (if s_gotfirst s then before_unit_start s else (s, [])) as [s1 e1]. cbn [s_payload s_gotfirst s_has s_data s_sid app].
  destruct (t_payload t) as [|b l] eqn:Et; [congruence|]. cbn [negb]. rewrite orb_true_r. reflexivity.
Qed.

Lemma tail_unb u l : u_ok u -> unbounded u -> forall s, Forall ok_tp l -> Forall (fun t => t_pusi t = 0) l -> u_bytes u = s_payload s ++ concat (map t_payload l) -> s_gotfirst s = true ->
  add_all s l = (mkps (u_bytes u) true (s_has s) (s_data s) (s_sid s), []).
Proof.
  intros Hu HB. induction l as [|t l IH]; intros s HO HP E G.
  - cbn [add_all map concat] in *. rewrite app_nil_r in E. rewrite E, <- G. destruct s; reflexivity.
  - inversion HO; inversion HP; subst. cbn [add_all map concat] in *. rewrite add_cont by assumption. rewrite app_assoc in E.
    rewrite (process_prefix u _ (concat (map t_payload l))) by (try assumption; left; assumption).
    rewrite IH; [reflexivity|assumption..|reflexivity].
Qed.
Lemma tail_bnd u l : u_ok u -> bounded u -> forall s, l <> [] -> Forall ok_tp l -> Forall (fun t => t_pusi t = 0) l -> u_bytes u = s_payload s ++ concat (map t_payload l) -> s_gotfirst s = true ->
  (s_sid s = 0 \/ s_sid s = u_sid u) ->
  add_all s l = (mkps (u_bytes u) true true (Some (u_rb u)) (u_sid u), [Received (u_body u)]).
Proof.
  intros Hu HB. induction l as [|t l IH]; intros s HN HO HP E G HS; [congruence|].
  inversion HO; inversion HP; subst. cbn [add_all map concat] in *. rewrite add_cont by assumption. rewrite app_assoc in E.
  destruct l as [|t' l].
  - cbn [map concat] in E. rewrite app_nil_r in E. rewrite (process_full u) by (try assumption; auto). reflexivity.
  - rewrite (process_prefix u _ (concat (map t_payload (t' :: l)))); try assumption.
    + rewrite IH; [reflexivity|discriminate|assumption..|reflexivity|assumption].
    + right. split; [assumption|]. cbn [map concat]. destruct (Forall_inv (Forall_inv_tail HO)) as (_ & _ & _ & N). destruct (t_payload t'); [congruence|discriminate].
Qed.

Lemma carries_split l u : carries l u -> exists t l', l = t :: l' /\ u = t_payload t ++ concat (map t_payload l') /\ t_pusi t = 1 /\ Forall (fun t => t_pusi t = 0) l' /\ ok_tp t /\ Forall ok_tp l'.
Proof.
  intros (E & P & O). destruct l as [|t l]; [contradiction|]. inversion O; subst. exists t, l. split; [reflexivity|]. split; [reflexivity|]. split; [tauto|]. split; [tauto|]. split; assumption.
Qed.

Lemma unit_unb u l s : u_ok u -> unbounded u -> carries l (u_bytes u) ->
  add_all s l = (mkps (u_bytes u) true (s_has (fst (flush s))) (s_data (fst (flush s))) (s_sid (fst (flush s))), snd (flush s)).
Proof.
  intros Hu HB HC. destruct (carries_split _ _ HC) as (t & l' & -> & E & P & P' & O & O'). cbn [add_all]. rewrite add_first by assumption.
  destruct (flush s) as [s1 e1]. cbn [fst snd]. rewrite (process_prefix u _ (concat (map t_payload l'))) by (try assumption; left; assumption).
  rewrite (tail_unb u l') by (try assumption; reflexivity). cbn [s_has s_data s_sid]. rewrite !app_nil_r. reflexivity.
Qed.
Lemma unit_bnd u l s : u_ok u -> bounded u -> carries l (u_bytes u) -> (s_sid (fst (flush s)) = 0 \/ s_sid (fst (flush s)) = u_sid u) ->
  add_all s l = (mkps (u_bytes u) true true (Some (u_rb u)) (u_sid u), snd (flush s) ++ [Received (u_body u)]).
Proof.
  intros Hu HB HC HS. destruct (carries_split _ _ HC) as (t & l' & -> & E & P & P' & O & O'). cbn [add_all]. rewrite add_first by assumption.
  destruct (flush s) as [s1 e1]. cbn [fst snd] in *. destruct l' as [|t' l'].
  - cbn [map concat] in E. rewrite app_nil_r in E. rewrite (process_full u) by (try assumption; cbn; auto). cbn [add_all]. rewrite app_nil_r. reflexivity.
  - rewrite (process_prefix u _ (concat (map t_payload (t' :: l')))); try assumption.
    + rewrite (tail_bnd u (t' :: l')) by (try assumption; try discriminate; reflexivity). rewrite app_nil_r. reflexivity.
    + right. split; [assumption|]. cbn [map concat]. destruct (Forall_inv O') as (_ & _ & _ & N). destruct (t_payload t'); [congruence|discriminate].
Qed.

Lemma flush_bnd u sid : bounded u -> flush (mkps (u_bytes u) true true (Some (u_rb u)) sid) = (mkps (u_bytes u) true true (Some (u_rb u)) sid, []).
Proof.
  intros HB. unfold flush, before_unit_start. cbn [s_gotfirst s_has]. unfold last_len. cbn [s_data].
  change (p_len (u_rb u)) with (u_len u mod 2 ^ 16). unfold bounded in HB. rewrite Z.mod_small by lia. destruct (Z.eqb_spec (u_len u) 0); [lia|]. reflexivity.
Qed.
Lemma flush_unb u d sid : u_ok u -> unbounded u -> flush (mkps (u_bytes u) true false d sid) = (mkps (u_bytes u) true false (Some (u_rb u)) sid, [Received (u_body u)]).
Proof.
  intros Hu HB. unfold flush, before_unit_start. cbn [s_gotfirst s_has s_payload].
  pose proof (u_bytes_len u) as TL. pose proof (u_hdl_range u). pose proof (zlen_nonneg (u_body u)).
  destruct (prefix_head u (u_bytes u) [] (eq_sym (app_nil_r _)) ltac:(lia)) as (tl & Hx). destruct (get_u u Hu) as (r & G).
  assert (N : nextcode (u_bytes u) = Some (u_bytes u)) by (rewrite Hx; reflexivity). rewrite N, G.
  unfold last_len. cbn [s_data s_payload s_gotfirst s_sid]. change (p_len (u_rb u)) with (u_len u mod 2 ^ 16). rewrite HB. cbn [Z.modulo Z.eqb negb]. 
  change (0 mod 2 ^ 16 =? 0) with true. cbn [negb app].
  unfold receive, last_hlen. cbn [s_data s_payload]. rewrite u_body_skip. reflexivity.
Qed.

Lemma add_all_app a : forall s b, add_all s (a ++ b) = let '(s1, e1) := add_all s a in let '(s2, e2) := add_all s1 b in (s2, e1 ++ e2).
Proof.
  induction a as [|t a IH]; intros s b; cbn [add_all app].
  - destruct (add_all s b); reflexivity.
  - destruct (add s t) as [s1 e1]. rewrite IH. destruct (add_all s1 a) as [s2 e2]. destruct (add_all s2 b) as [s3 e3]. rewrite app_assoc. reflexivity.
Qed.

Definition good_state (sid : Z) (s : pstate) : Prop := s_sid (fst (flush s)) = 0 \/ s_sid (fst (flush s)) = sid.

Lemma units_bnd sid : forall us ls s, Forall2 (fun u l => u_ok u /\ bounded u /\ u_sid u = sid /\ carries l (u_bytes u)) us ls -> good_state sid s ->
  let '(s', e) := add_all s (concat ls) in e ++ snd (flush s') = snd (flush s) ++ map (fun u => Received (u_body u)) us /\ (us <> [] -> s_gotfirst s' = true).
Proof.
  induction us as [|u us IH]; intros ls s H G; inversion H; subst; cbn [concat add_all map].
  - rewrite app_nil_r. split; [reflexivity|congruence].
  - destruct H2 as (Hu & HB & <- & HC). rewrite add_all_app. rewrite (unit_bnd u) by assumption.
    assert (G' : good_state (u_sid u) (mkps (u_bytes u) true true (Some (u_rb u)) (u_sid u))) by (unfold good_state; rewrite flush_bnd by assumption; right; reflexivity).
    pose proof (IH l' _ H4 G') as Q. destruct (add_all _ (concat l')) as [s2 e2] eqn:EA. destruct Q as [Q1 Q2]. rewrite flush_bnd in Q1 by assumption. cbn [snd app] in Q1.
    rewrite <- !app_assoc. rewrite Q1. split; [reflexivity|]. intros _. destruct us as [|u' us]; [|apply Q2; discriminate].
    inversion H4; subst. cbn [concat add_all] in EA. injection EA as <- _. reflexivity.
Qed.
Lemma units_unb sid : forall us ls s, Forall2 (fun u l => u_ok u /\ unbounded u /\ carries l (u_bytes u)) us ls -> good_state sid s -> s_has (fst (flush s)) = false ->
  let '(s', e) := add_all s (concat ls) in e ++ snd (flush s') = snd (flush s) ++ map (fun u => Received (u_body u)) us /\ (us <> [] -> s_gotfirst s' = true)
   /\ good_state sid s'.
Proof.
  induction us as [|u us IH]; intros ls s H G HF; inversion H; subst; cbn [concat add_all map].
  - rewrite app_nil_r. split; [reflexivity|split; [congruence|assumption]].
  - destruct H2 as (Hu & HB & HC). rewrite add_all_app. rewrite (unit_unb u) by assumption. rewrite HF.
    set (s0 := mkps _ _ _ _ _). assert (F0 : flush s0 = (mkps (u_bytes u) true false (Some (u_rb u)) (s_sid (fst (flush s))), [Received (u_body u)])) by (apply flush_unb; assumption).
    assert (G' : good_state sid s0) by (unfold good_state; rewrite F0; exact G).
    pose proof (IH l' s0 H4 G' ltac:(rewrite F0; reflexivity)) as Q. destruct (add_all s0 (concat l')) as [s2 e2] eqn:EA. destruct Q as (Q1 & Q2 & Q3). rewrite F0 in Q1. cbn [snd app] in Q1.
    rewrite <- !app_assoc. rewrite Q1. split; [reflexivity|]. split; [|exact Q3]. intros _. destruct us as [|u' us]; [|apply Q2; discriminate].
    inversion H4; subst. cbn [concat add_all] in EA. injection EA as <- _. reflexivity.
Qed.

Lemma reassemble_ok sid us bs lus lbs :
  Forall2 (fun u l => u_ok u /\ unbounded u /\ carries l (u_bytes u)) us lus ->
  Forall2 (fun u l => u_ok u /\ bounded u /\ u_sid u = sid /\ carries l (u_bytes u)) bs lbs ->
  reassemble (concat (lus ++ lbs)) = map (fun u => Received (u_body u)) (us ++ bs).
Proof.
  intros H1 H2. unfold reassemble. rewrite concat_app, add_all_app.
  pose proof (units_unb sid us lus ps0 H1 (or_introl eq_refl) eq_refl) as Q1. destruct (add_all ps0 (concat lus)) as [s1 e1] eqn:E1. destruct Q1 as (Q1 & Q1' & G1). cbn [snd] in Q1.
  pose proof (units_bnd sid bs lbs s1 H2 G1) as Q2. destruct (add_all s1 (concat lbs)) as [s2 e2] eqn:E2. destruct Q2 as [Q2 Q2'].
  assert (F : snd (before_unit_start s2) = snd (flush s2)).
  { destruct bs as [|b bs]; [inversion H2; subst; cbn [concat add_all] in E2; injection E2 as <- <-; destruct us as [|u us]|].
    - inversion H1; subst. cbn [concat add_all] in E1. injection E1 as <- <-. reflexivity.
    - unfold flush. rewrite Q1' by discriminate. reflexivity.
    - unfold flush. rewrite Q2' by discriminate. reflexivity. }
  rewrite F, <- app_assoc, Q2, app_assoc, Q1. cbn [flush ps0 s_gotfirst snd app]. rewrite map_app. reflexivity.
Qed.
