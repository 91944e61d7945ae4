(** Proofs about the parameter sets (Sps_model). *)
From Verif Require Import Util Bits_spec Bits_lemmas Bitstream_model Nal_model Nal_proofs Sps_model.
From Coq Require Import ZifyNat.
Local Open Scope Z_scope.
Local Ltac Zify.zify_post_hook ::= Z.div_mod_to_equations.

Definition Rd {A} (p : getter A) (bs : list bool) (v : A) : Prop := forall rest, p (bs ++ rest) = Ok (v, rest).
Lemma rd_ret {A} (v : A) : Rd (gret v) [] v. Proof. intro. reflexivity. Qed.
Lemma rd_bind {A B} (p : getter A) (f : A -> getter B) a b x y : Rd p a x -> Rd (f x) b y -> Rd (gbind p f) (a ++ b) y.
Proof. intros P Q rest. unfold gbind. rewrite <- app_assoc, P. cbn [bindo fst snd]. apply Q. Qed.
Lemma rd_bind0 {A B} (p : getter A) (f : A -> getter B) a x y : Rd p a x -> Rd (f x) [] y -> Rd (gbind p f) a y.
Proof. intros P Q. rewrite <- (app_nil_r a). eapply rd_bind; eassumption. Qed.
Lemma rd_bindn {A B} (p : getter A) (f : A -> getter B) b x y : Rd p [] x -> Rd (f x) b y -> Rd (gbind p f) b y.
Proof. intros P Q. change b with ([] ++ b). eapply rd_bind; eassumption. Qed.
Lemma rd_getb n v : is_u n v -> Rd (getb n) (field_bits v n) v.
Proof.
  intros R rest. unfold getb. rewrite app_length, field_bits_length. destruct (Nat.leb_spec n (n + length rest)); [|lia].
  rewrite firstn_app, skipn_app, !field_bits_length, !Nat.sub_diag, firstn_all2, skipn_all2 by (rewrite field_bits_length; lia).
  cbn [firstn skipn]. rewrite app_nil_r, bits_val_field, Z.mod_small by exact R. reflexivity.
Qed.
Lemma rd_flag v : is_flag v -> Rd (getb 1) (flag v) v.
Proof. intros [->| ->] rest; reflexivity. Qed.
Lemma zeros_repeat n s : zeros (repeat false n ++ true :: s) = Ok (n, s).
Proof. induction n as [|n IH]; [reflexivity|]. cbn [repeat app zeros]. rewrite IH. reflexivity. Qed.
Lemma field_low v n : field_bits v n = field_bits (v mod 2 ^ Z.of_nat n) n.
Proof.
  apply nth_ext with (d := false) (d' := false); [now rewrite !field_bits_length|]. intros k K. rewrite field_bits_length in K.
  rewrite !nth_field_bits by exact K. rewrite Z.mod_pow2_bits_low by lia. reflexivity.
Qed.
Lemma log2_31 v : is_ue v -> (Z.to_nat (Z.log2 (v + 1)) < 31)%nat.
Proof. intros [A B]. assert (Z.log2 (v + 1) < 31) by (apply Z.log2_lt_pow2; lia). pose proof (Z.log2_nonneg (v + 1)). lia. Qed.
Lemma ue_code_eq v : 0 <= v -> let n := Z.to_nat (Z.log2 (v + 1)) in ue_code v = repeat false n ++ true :: field_bits (v + 1 - 2 ^ Z.of_nat n) n /\ 2 ^ Z.of_nat n <= v + 1 < 2 * 2 ^ Z.of_nat n.
Proof.
  intros P n. pose proof (Z.log2_spec (v + 1) ltac:(lia)) as S0. pose proof (Z.log2_nonneg (v + 1)) as N.
  rewrite Z.pow_succ_r in S0 by exact N. assert (E : Z.of_nat n = Z.log2 (v + 1)) by (unfold n; lia). rewrite <- E in S0.
  split; [|lia]. unfold ue_code. fold n. f_equal. cbn [field_bits]. f_equal.
  - rewrite E. apply Z.bit_log2. lia.
  - rewrite (field_low (v + 1)), (field_low (v + 1 - _)). f_equal. set (m := 2 ^ Z.of_nat n) in *. assert (0 < m) by (unfold m; apply Z.pow_pos_nonneg; lia).
    replace (v + 1) with (v + 1 - m + 1 * m) at 1 by lia. apply Z.mod_add. lia.
Qed.
Lemma rd_ue v : is_ue v -> Rd ue (ue_code v) v.
Proof.
  intros R rest. pose proof (log2_31 v R) as L. destruct (ue_code_eq v (proj1 R)) as [E B].
  set (n := Z.to_nat (Z.log2 (v + 1))) in *. rewrite E, <- app_assoc. cbn [app].
  unfold ue. rewrite zeros_repeat. cbn [bindo]. destruct (Nat.eqb_spec n 0) as [N|N].
  - rewrite N in *. cbn [field_bits app]. change (2 ^ Z.of_nat 0) with 1 in B. assert (v = 0) as -> by lia. reflexivity.
  - destruct (Nat.leb_spec n 32); [|lia]. rewrite (rd_getb n (v + 1 - 2 ^ Z.of_nat n) ltac:(unfold is_u; lia)). cbn [bindo fst snd].
    destruct (Nat.leb_spec 31 n); [lia|]. replace (2 ^ Z.of_nat n - 1 + (v + 1 - 2 ^ Z.of_nat n)) with v by lia. reflexivity.
Qed.
Lemma to_float_small k : k <= 2 ^ 24 -> to_float k = k.
Proof.
  intro. unfold to_float. destruct (Z.ltb_spec k (2 ^ 24)); [reflexivity|]. replace k with (2 ^ 24) by lia. reflexivity.
Qed.
Lemma rd_se v : is_se v -> Rd se (se_code v) v.
Proof.
  intros R. unfold is_se in R. unfold se, se_code. apply rd_bind0 with (x := if 0 <? v then 2 * v - 1 else - 2 * v).
  - apply rd_ue. unfold is_ue. destruct (Z.ltb_spec 0 v); lia.
  - cbv zeta. rewrite to_float_small by (destruct (Z.ltb_spec 0 v); lia).
    destruct (Z.leb_spec (2 ^ 31) (if 0 <? v then 2 * v - 1 else - 2 * v)); [destruct (Z.ltb_spec 0 v); lia|].
    replace (if Z.odd _ then _ else _) with v; [apply rd_ret|].
    destruct (Z.ltb_spec 0 v).
    + replace (2 * v - 1) with (1 + 2 * (v - 1)) by lia. rewrite Z.odd_add_mul_2. cbn [Z.odd]. lia.
    + replace (- 2 * v) with (0 + 2 * (- v)) by lia. rewrite Z.odd_add_mul_2. cbn [Z.odd]. lia.
Qed.
Lemma rd_rep {A} (p : getter A) (f : A -> list bool) (P : A -> Prop) l : (forall x, P x -> Rd p (f x) x) -> Forall P l -> Rd (rep (length l) p) (concat (map f l)) l.
Proof.
  intros H F. induction F as [|x l PX F IH]; [apply rd_ret|]. cbn [length rep map concat].
  eapply rd_bind; [apply H, PX|]. eapply rd_bind0; [exact IH|apply rd_ret].
Qed.
Lemma rd_opt {A} (p : getter A) (f : A -> list bool) (P : A -> Prop) o : (forall x, P x -> Rd p (f x) x) -> given P o -> Rd (opt p) (when o f) o.
Proof.
  intros H G. unfold opt, when. destruct o as [x|].
  - change (true :: f x) with (flag 1 ++ f x). eapply rd_bind; [apply rd_flag; right; reflexivity|]. cbn [Z.eqb].
    eapply rd_bind0; [apply H, G|apply rd_ret].
  - change [false] with (flag 0). eapply rd_bind0; [apply rd_flag; left; reflexivity|apply rd_ret].
Qed.

Ltac prim := first [ apply rd_flag; assumption | apply rd_ue; assumption | apply rd_se; assumption | apply rd_getb; assumption ].
Ltac step := first [ eapply rd_bind; [prim|] | eapply rd_bind0; [prim|apply rd_ret] ].

Lemma rd_hrd h : hrd_ok h -> Rd get_hrd (hrd_syntax h) h.
Proof.
  destruct h as [rs ss l a b c d]. intros (L & F & H1 & H2 & H3 & H4 & H5 & H6). cbn [h_cpb h_rate_scale h_size_scale h_delay h_removal h_output h_offset] in *.
  unfold get_hrd, hrd_syntax. cbn [h_cpb h_rate_scale h_size_scale h_delay h_removal h_output h_offset].
  eapply rd_bind; [apply rd_ue; unfold is_ue; lia|]. do 2 step.
  destruct (Z.leb_spec 64 (Z.of_nat (length l) - 1)); [lia|].
  replace (Z.to_nat (Z.of_nat (length l) - 1 + 1)) with (length l) by lia.
  eapply rd_bind; [eapply rd_rep; [|exact F]|].
  - intros [[r z] f] (R & Z0 & C). do 3 step.
  - do 4 step.
Qed.
Lemma rd_vui u : vui_ok u -> Rd get_vui (vui_syntax u) u.
Proof.
  destruct u as [asp ov sig chr tim nal vcl low st lim]. unfold vui_ok. cbn [u_aspect u_overscan u_signal u_chroma u_timing u_nal u_vcl u_low u_struct u_limits].
  intros (H1 & H2 & H3 & H4 & H5 & H6 & H7 & H8 & H9 & H10 & H11).
  unfold get_vui, vui_syntax. cbn [u_aspect u_overscan u_signal u_chroma u_timing u_nal u_vcl u_low u_struct u_limits].
  eapply rd_bind; [eapply rd_opt; [|exact H1]|].
  { intros [i s] (A & B & C). cbn [fst snd] in *. step. destruct s as [[w h]|].
    - destruct (Z.eqb_spec i 255) as [Q|Q]; [|exfalso; apply Q, B; discriminate]. destruct C as [C D]. cbn [fst snd] in *. do 2 step.
    - destruct (Z.eqb_spec i 255) as [Q|Q]; [|apply rd_ret]. exfalso. apply B in Q. congruence. }
  eapply rd_bind; [eapply rd_opt; [|exact H2]; intros; prim|].
  eapply rd_bind; [eapply rd_opt; [|exact H3]|].
  { intros [[f r] c] (A & B & C). do 2 step. eapply rd_bind0; [eapply rd_opt; [|exact C]|apply rd_ret].
    intros [[p t] m] (D & E & F). do 3 step. }
  eapply rd_bind; [eapply rd_opt; [|exact H4]|].
  { intros [t b] (A & B). cbn [fst snd] in *. do 2 step. }
  eapply rd_bind; [eapply rd_opt; [|exact H5]|].
  { intros [[n t] b] (A & B & C). do 3 step. }
  eapply rd_bind; [eapply rd_opt; [apply rd_hrd|exact H6]|].
  eapply rd_bind; [eapply rd_opt; [apply rd_hrd|exact H7]|].
  eapply rd_bind with (x := low).
  { destruct nal; [prim|]. destruct vcl; [prim|]. rewrite (H9 eq_refl eq_refl). apply rd_ret. }
  step. eapply rd_bind0; [eapply rd_opt; [|exact H11]|apply rd_ret].
  intros [[[[[[m a] b] c] d] e] f] (A1 & A2 & A3 & A4 & A5 & A6 & A7). do 7 step.
Qed.
Lemma rd_order o : order_ok o -> Rd get_order (order_syntax o) (wrapped o).
Proof.
  assert (K : forall k, 0 <= k <= 2 -> is_ue k) by (unfold is_ue; lia).
  destruct o as [l|z a b l|t]; cbn [order_ok order_syntax wrapped]; unfold get_order; intros H.
  - eapply rd_bind; [apply rd_ue, K; lia|]. cbn [Z.eqb]. step.
  - destruct H as (H1 & H2 & H3 & H4 & H5). eapply rd_bind; [apply rd_ue, K; lia|]. cbn [Z.eqb Pos.eqb]. do 4 step. rewrite Nat2Z.id.
    eapply rd_bind0; [eapply rd_rep; [apply rd_se|exact H5]|]. unfold u32. change (map u32 l) with (map (fun x => x mod 2 ^ 32) l). apply rd_ret.
  - destruct H as [H1 H2]. eapply rd_bind0; [prim|]. destruct (Z.eqb_spec t 0); [lia|]. destruct (Z.eqb_spec t 1); [lia|]. apply rd_ret.
Qed.
(** what is read before the stop bit *)
Definition sps_body : getter sps :=
  let* profile := getb 8 in
  let* c0 := getb 1 in let* c1 := getb 1 in let* c2 := getb 1 in let* c3 := getb 1 in let* res := getb 4 in
  let* level := getb 8 in let* id := ue in
  let* high := (if 100 <=? profile then
      let* fmt := ue in let* rct := (if fmt =? 3 then let* r := getb 1 in gret (Some r) else gret None) in
      let* l := ue in let* c := ue in let* b := getb 1 in let* m := getb 1 in gret (Some (fmt, rct, l, c, b, m))
    else gret None) in
  let* fn := ue in let* ord := get_order in
  let* refs := ue in let* gaps := getb 1 in let* w := ue in let* h := ue in
  let* fm := getb 1 in
  let* field := (if fm =? 0 then let* a := getb 1 in gret (Some a) else gret None) in
  let* direct := getb 1 in
  let* crop := opt (let* l := ue in let* r := ue in let* t := ue in let* b := ue in gret (l, r, t, b)) in
  let* v := opt get_vui in
  gret (mkSps profile (c0, c1, c2, c3) res level id high fn ord refs gaps w h field direct crop v).
Lemma rd_sps_body s : sps_ok s -> no_matrix s -> (In (q_profile s) high_profiles <-> 100 <= q_profile s) -> Rd sps_body (sps_syntax s) (read_as s).
Proof.
  destruct s as [pr [[[c0 c1] c2] c3] rs lv id hi fn od rf gp w h fd di cr vu]. unfold sps_ok, no_matrix, read_as, sps_syntax.
  cbn [q_profile q_constraints q_reserved q_level q_id q_high q_frame_num q_order q_refs q_gaps q_width q_height q_field q_direct q_crop q_vui].
  intros (P1 & (P2 & P3 & P4 & P5) & P6 & P7 & P8 & P9 & P10 & P11 & P12 & P13 & P14 & P15 & P16 & P17 & P18 & P19 & P20) NM HP.
  unfold sps_body. rewrite <- !app_assoc. do 8 step.
  eapply rd_bind with (x := hi).
  { destruct hi as [[[[[[f r] l] c] b] m]|].
    - destruct (Z.leb_spec 100 pr) as [Q|Q]; [|exfalso; assert (100 <= pr) by (apply HP, P9; discriminate); lia].
      destruct P10 as (A1 & A2 & A3 & A4 & A5 & A6 & A7). step.
      cbn [given snd] in NM. rewrite NM in *. cbn [Z.eqb]. rewrite app_nil_r.
      eapply rd_bind with (x := r).
      + destruct r as [r|]; cbn [given] in A3.
        * destruct (Z.eqb_spec f 3) as [Q'|Q']; [|exfalso; apply Q', A2; discriminate]. step.
        * destruct (Z.eqb_spec f 3) as [Q'|Q']; [exfalso; apply A2 in Q'; congruence|]. apply rd_ret.
      + do 4 step.
    - destruct (Z.leb_spec 100 pr) as [Q|Q]; [|apply rd_ret]. exfalso. apply HP, P9 in Q. congruence. }
  step. eapply rd_bind; [apply rd_order; exact P12|]. do 4 step.
  replace (match fd with Some a => false :: flag a | None => [true] end ++ flag di ++ when cr (fun c => let '(l, r, t, b) := c in ue_code l ++ ue_code r ++ ue_code t ++ ue_code b) ++ when vu vui_syntax)
    with (flag (match fd with Some _ => 0 | None => 1 end) ++ match fd with Some a => flag a | None => [] end ++ flag di ++ when cr (fun c => let '(l, r, t, b) := c in ue_code l ++ ue_code r ++ ue_code t ++ ue_code b) ++ when vu vui_syntax) by (destruct fd; reflexivity).
  eapply rd_bind; [apply rd_flag; destruct fd; [left|right]; reflexivity|].
  eapply rd_bind with (x := fd).
  { destruct fd as [a|]; cbn [Z.eqb]; [|apply rd_ret]. cbn [given] in P17. step. }
  step. eapply rd_bind; [eapply rd_opt; [|exact P19]|].
  { intros [[[l r] t] b] (A1 & A2 & A3 & A4). do 4 step. }
  eapply rd_bind0; [eapply rd_opt; [apply rd_vui|exact P20]|apply rd_ret].
Qed.
Lemma gbind_assoc {A B C} (p : getter A) (f : A -> getter B) (g : B -> getter C) s : gbind (gbind p f) g s = gbind p (fun x => gbind (f x) g) s.
Proof. unfold gbind. destruct (p s) as [[a t]| | |]; reflexivity. Qed.
Lemma gbind_ext {A B} (p : getter A) (f g : A -> getter B) s : (forall x s, f x s = g x s) -> gbind p f s = gbind p g s.
Proof. intro H. unfold gbind. destruct (p s) as [[a t]| | |]; try reflexivity. cbn [bindo]. apply H. Qed.
Lemma sps_split s : get_sps s = gbind sps_body (fun q => gbind trailing (fun _ => gret q)) s.
Proof. unfold get_sps, sps_body. repeat (rewrite gbind_assoc; apply gbind_ext; intros; try reflexivity). Qed.
Lemma bits_whole r : length (bytes_bits r) = (8 * length r)%nat. Proof. apply bytes_bits_length. Qed.
(** the stop bit, and the zeros after it *)
Lemma trailing_ok (k : Z) d : (d < 8)%nat -> trailing (true :: repeat false d) = Ok (tt, []).
Proof.
  intro D. unfold trailing, gbind. change (true :: repeat false d) with (flag 1 ++ repeat false d). rewrite (rd_flag 1 ltac:(right; reflexivity)). cbn [bindo fst snd].
  rewrite repeat_length, Nat.mod_small by exact D. rewrite skipn_all2 by (rewrite repeat_length; lia). reflexivity.
Qed.
Lemma get_sps_ok s r : sps_ok s -> no_matrix s -> (In (q_profile s) high_profiles <-> 100 <= q_profile s) -> is_rbsp r (sps_syntax s) -> get_sps (bytes_bits r) = Ok (read_as s, []).
Proof.
  intros H NM HP (_ & d & D & E). rewrite E, sps_split. unfold gbind at 1. rewrite (rd_sps_body s H NM HP). cbn [bindo fst snd].
  unfold gbind. rewrite (trailing_ok 0 d D). reflexivity.
Qed.

Lemma rd_groups g : groups_ok g -> (forall n l, g <> Assigned n l) -> Rd get_groups (groups_syntax g) g.
Proof.
  assert (K : forall k, 0 <= k <= 64 -> is_ue k) by (unfold is_ue; lia).
  destruct g as [|l|n l|n t d r|n l|n t]; cbn [groups_ok groups_syntax]; unfold get_groups; intros H NA.
  - eapply rd_bind0; [apply rd_ue, K; lia|apply rd_ret].
  - destruct H as [H1 H2]. eapply rd_bind; [apply rd_ue, K; lia|]. destruct (Z.eqb_spec (Z.of_nat (length l) - 1) 0); [lia|].
    eapply rd_bind; [apply rd_ue, K; lia|]. cbn [Z.eqb]. destruct (Z.leb_spec 64 (Z.of_nat (length l) - 1)); [lia|].
    replace (Z.to_nat (Z.of_nat (length l) - 1 + 1)) with (length l) by lia. eapply rd_bind0; [eapply rd_rep; [apply rd_ue|exact H2]|apply rd_ret].
  - destruct H as (H1 & H2 & H3). eapply rd_bind; [apply rd_ue, K; lia|]. destruct (Z.eqb_spec n 0); [lia|].
    eapply rd_bind; [apply rd_ue, K; lia|]. cbn [Z.eqb Pos.eqb]. destruct (Z.leb_spec 65 n); [lia|].
    replace (Z.to_nat n) with (length l) by lia. eapply rd_bind0; [eapply rd_rep; [|exact H3]|apply rd_ret].
    intros [a b] [A B]. cbn [fst snd] in *. do 2 step.
  - destruct H as (H1 & H2 & H3 & H4). eapply rd_bind; [apply rd_ue, K; lia|]. destruct (Z.eqb_spec n 0); [lia|].
    eapply rd_bind; [apply rd_ue, K; lia|]. destruct (Z.eqb_spec t 0); [lia|]. destruct (Z.eqb_spec t 2); [lia|].
    replace ((t =? 3) || (t =? 4) || (t =? 5)) with true by (destruct (Z.eqb_spec t 3), (Z.eqb_spec t 4), (Z.eqb_spec t 5); try reflexivity; lia).
    do 2 step.
  - exfalso. exact (NA n l eq_refl).
  - destruct H as [H1 ->]. eapply rd_bind; [apply rd_ue, K; lia|]. destruct (Z.eqb_spec n 0); [lia|].
    eapply rd_bind0; [apply rd_ue, K; lia|]. apply rd_ret.
Qed.
Definition pps_body : getter pps :=
  let* id := ue in let* sid := ue in let* ent := getb 1 in let* ord := getb 1 in
  let* gs := get_groups in
  let* l0 := ue in let* l1 := ue in let* wp := getb 1 in let* bi := getb 2 in
  let* qp := se in let* qs := se in let* ch := se in
  let* db := getb 1 in let* ci := getb 1 in let* rd := getb 1 in gret (mkPps id sid ent ord gs l0 l1 wp bi qp qs ch db ci rd).
Lemma rd_pps_body p : pps_ok p -> (forall n l, p_groups p <> Assigned n l) -> Rd pps_body (pps_syntax p) p.
Proof.
  destruct p as [id sid ent ord gs l0 l1 wp bi qp qs ch db ci rd]. unfold pps_ok, pps_syntax.
  cbn [p_id p_sps p_entropy p_order p_groups p_l0 p_l1 p_weighted p_bipred p_qp p_qs p_chroma p_deblock p_intra p_redundant].
  intros (H1 & H2 & H3 & H4 & H5 & H6 & H7 & H8 & H9 & H10 & H11 & H12 & H13 & H14 & H15) NA. unfold pps_body.
  do 4 step. eapply rd_bind; [apply rd_groups; assumption|]. do 10 step.
Qed.
Lemma pps_split s : get_pps s = gbind pps_body (fun q => gbind trailing (fun _ => gret q)) s.
Proof. unfold get_pps, pps_body. repeat (rewrite gbind_assoc; apply gbind_ext; intros; try reflexivity). Qed.
(** with whatever comes after what is read (an extension, and the stop bit) *)
Lemma get_pps_ok p r more : pps_ok p -> (forall n l, p_groups p <> Assigned n l) -> is_rbsp r (pps_syntax p ++ more) -> exists rest, get_pps (bytes_bits r) = Ok (p, rest).
Proof.
  intros H NA (_ & d & D & E). rewrite E, pps_split, <- app_assoc. unfold gbind at 1. rewrite (rd_pps_body p H NA). cbn [bindo fst snd].
  unfold gbind, trailing, gbind, getb. destruct (more ++ true :: repeat false d) as [|b t] eqn:Q; [destruct more; discriminate Q|]. cbn [length Nat.leb bindo fst snd gret]. eexists. reflexivity.
Qed.
Lemma parse_unit {A} (p : getter A) type u r v rest : is_unit type u r -> last r 0 <> 3 -> p (bytes_bits r) = Ok (v, rest) -> parse_nal p u = Ok v.
Proof.
  intros (h & _ & _ & ->) L E. unfold parse_nal, decode_nal. rewrite (proj1 (dec_esc r)). unfold without_last_3.
  destruct (Z.eqb_spec (last r 0) 3); [contradiction|]. cbn [rbsp tl]. rewrite E. reflexivity.
Qed.
