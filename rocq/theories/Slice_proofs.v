(** Proofs about slice headers and messages (Slice_model). *)
From Verif Require Import Util Bits_spec Bits_lemmas Bitstream_model Nal_model Nal_proofs Sps_model Sps_proofs Slice_model.
From Coq Require Import ZifyNat.
Local Open Scope Z_scope.
Local Ltac Zify.zify_post_hook ::= Z.div_mod_to_equations.

Lemma rd_getn n v : 1 <= n <= 32 -> is_u (Z.to_nat n) v -> Rd (getn n) (field_bits v (Z.to_nat n)) v.
Proof.
  intros N U. unfold getn. replace (n =? 0) with false by lia. replace ((n <? 0) || (32 <? n)) with false by lia. apply rd_getb. exact U.
Qed.
Lemma rd_lift {A} (o : outcome A) a : o = Ok a -> Rd (lift o) [] a.
Proof. intros -> rest. reflexivity. Qed.
Lemma rd_eq {A} (p : getter A) b c v : Rd p b v -> b = c -> Rd p c v. Proof. intros R <-. exact R. Qed.

Lemma rd_field q h : (q_field q = None -> e_field h = None) -> given (fun b => exists v, b = Some v /\ is_flag v) (e_field h) ->
  Rd (match q_field q with
      | None => gret None
      | Some _ => let* f := getb 1 in if f =? 0 then gret (Some (f, None)) else let* b := getb 1 in gret (Some (f, Some b)) end)
     (match q_field q with None => [] | Some _ => match e_field h with None => [false] | Some b => true :: match b with Some b => flag b | None => [] end end end)
     (match q_field q with None => None | Some _ => Some (match e_field h with None => (0, None) | Some b => (1, b) end) end).
Proof.
  intros N G. destruct (q_field q) as [x|]; [|apply rd_ret]. destruct (e_field h) as [b|].
  - destruct G as (v & -> & F). apply (rd_bind _ _ [true] (flag v) 1); [apply (rd_flag 1); right; reflexivity|]. cbn [Z.eqb].
    eapply rd_bind0; [apply rd_flag, F|]. apply rd_ret.
  - apply (rd_bind0 _ _ [false] 0); [apply (rd_flag 0); left; reflexivity|]. apply rd_ret.
Qed.
Lemma rd_opt_ue (o : option Z) (b : bool) : has o = b -> given is_ue o -> Rd (if b then ue else gret 0) (match o with Some i => ue_code i | None => [] end) (value o).
Proof. intros <- G. destruct o; [apply rd_ue, G|apply rd_ret]. Qed.
Lemma rd_order_slice q p h (F : option (Z * option Z)) : is_flag (p_order p) ->
  (q_field q = None -> p_order p = 1 -> match q_order q with Order0 _ => False | Order1 z _ _ _ => z <> 0 | OrderOther _ => True end) ->
  (q_field q = None -> e_field h = None) ->
  F = (match q_field q with None => None | Some _ => Some (match e_field h with None => (0, None) | Some b => (1, b) end) end) ->
  (match q_order q with
      | Order0 n => 0 <= n <= 12 /\ exists lsb r, e_order h = lsb :: r /\ is_u (Z.to_nat (n + 4)) lsb /\ Forall is_se r /\ length r = (if pair_of_frame q p h then 1 else 0)%nat
      | Order1 z _ _ _ => Forall is_se (e_order h) /\ length (e_order h) = (if (z =? 0)%Z then if pair_of_frame q p h then 2 else 1 else 0)%nat
      | OrderOther _ => e_order h = []
      end) ->
  Rd (get_slice_order q p F)
     (match q_order q, e_order h with
      | Order0 n, lsb :: r => field_bits lsb (Z.to_nat (n + 4)) ++ concat (map se_code r)
      | _, l => concat (map se_code l) end)
     (let lsb := match q_order q with Order0 _ => true | _ => false end in
      (if lsb then nth 0 (e_order h) 0 else 0, if lsb then nth 1 (e_order h) 0 else 0, if lsb then (0, 0) else (nth 0 (e_order h) 0, nth 1 (e_order h) 0))).
Proof.
  intros PF KN NF EF OK. unfold get_slice_order.
  assert (FO : match q_order q with Order0 _ => True | Order1 z _ _ _ => z = 0 | OrderOther _ => False end -> frame_order p F = Ok (pair_of_frame q p h)).
  { intro C. unfold frame_order, pair_of_frame. destruct PF as [P|P]; rewrite P; [reflexivity|]. cbn [Z.eqb]. rewrite EF.
    destruct (q_field q); [destruct (e_field h); reflexivity|]. exfalso. specialize (KN eq_refl P). destruct (q_order q); tauto. }
  destruct (q_order q) as [n|z a b l|t]; cbv zeta.
  - destruct OK as (N & lsb & r & E & U & FS & L). rewrite E. cbn [nth].
    eapply rd_bind; [apply rd_getn; [lia|exact U]|]. eapply rd_bindn; [apply rd_lift, FO, Logic.I|].
    destruct (pair_of_frame q p h).
    + destruct r as [|x [|y r]]; try discriminate L. inversion FS; subst. cbn [map concat nth]. rewrite app_nil_r. eapply rd_bind0; [apply rd_se; assumption|apply rd_ret].
    + destruct r; [|discriminate L]. eapply rd_bind0; [apply rd_ret|apply rd_ret].
  - destruct OK as [FS L]. destruct (Z.eqb_spec z 0) as [Z0|Z0].
    + assert (G : exists d r, e_order h = d :: r /\ is_se d /\ Forall is_se r /\ length r = (if pair_of_frame q p h then 1 else 0)%nat).
      { destruct (e_order h) as [|d r]; [destruct (pair_of_frame q p h); discriminate L|]. inversion FS; subst. exists d, r. split; [reflexivity|]. split; [assumption|]. split; [assumption|].
        cbn [length] in L. destruct (pair_of_frame q p h); lia. }
      destruct G as (d & r & -> & D & FR & LR). cbn [map concat nth].
      eapply rd_bind; [apply rd_se, D|]. eapply rd_bindn; [apply rd_lift, FO, Z0|].
      destruct (pair_of_frame q p h).
      * destruct r as [|x [|y r]]; try discriminate LR. inversion FR; subst. cbn [map concat nth]. rewrite app_nil_r. eapply rd_bind0; [apply rd_se; assumption|apply rd_ret].
      * destruct r; [|discriminate LR]. eapply rd_bind0; [apply rd_ret|apply rd_ret].
    + destruct (e_order h); [|discriminate L]. apply rd_ret.
  - rewrite OK. apply rd_ret.
Qed.

Lemma type_known t : In t [0; 1; 2; 3; 4; 7; 9] -> is_b t = (t =? 1) /\ is_p t || is_sp t || is_b t = (t =? 0) || (t =? 3) || (t =? 1).
Proof. cbn [In]. intros [<-|[<-|[<-|[<-|[<-|[<-|[<-|[]]]]]]]]; split; reflexivity. Qed.
Lemma rd_refs h : In (e_type h) [0; 1; 2; 3; 4; 7; 9] ->
  (if is_p (e_type h) || is_sp (e_type h) || is_b (e_type h)
      then given (fun l => Forall is_ue l /\ length l = (if is_b (e_type h) then 2 else 1)%nat) (e_refs h) else e_refs h = None) ->
  Rd (if (e_type h =? 0) || (e_type h =? 3) || (e_type h =? 1) then
      let* o := getb 1 in
      if o =? 0 then gret (Some o, 0, 0)
      else let* a := ue in let* b := (if e_type h =? 1 then ue else gret 0) in gret (Some o, a, b)
    else gret (None, 0, 0))
   (if is_p (e_type h) || is_sp (e_type h) || is_b (e_type h) then match e_refs h with None => [false] | Some l => true :: concat (map ue_code l) end else [])
   (if is_p (e_type h) || is_sp (e_type h) || is_b (e_type h) then Some (match e_refs h with None => 0 | Some _ => 1 end) else None,
    nth 0 (match e_refs h with Some l => l | None => [] end) 0, nth 1 (match e_refs h with Some l => l | None => [] end) 0).
Proof.
  intros K. destruct (type_known _ K) as [B P]. rewrite P, B. destruct ((e_type h =? 0) || (e_type h =? 3) || (e_type h =? 1)).
  - destruct (e_refs h) as [l|]; cbn [given].
    + intros [F L]. apply (rd_bind _ _ [true] (concat (map ue_code l)) 1); [apply (rd_flag 1); right; reflexivity|]. cbn [Z.eqb]. destruct (e_type h =? 1).
      * destruct l as [|a [|b [|c l]]]; try discriminate L. inversion F as [|? ? A F2]; subst. inversion F2; subst. cbn [map concat nth]. rewrite app_nil_r.
        eapply rd_bind; [apply rd_ue, A|]. eapply rd_bind0; [apply rd_ue; assumption|apply rd_ret].
      * destruct l as [|a [|b l]]; try discriminate L. inversion F as [|? ? A F2]; subst. cbn [map concat nth].
        eapply rd_bind; [apply rd_ue, A|]. eapply rd_bind0; [apply rd_ret|apply rd_ret].
    + intros _. apply (rd_bind0 _ _ [false] 0); [apply (rd_flag 0); left; reflexivity|]. apply rd_ret.
  - intros ->. apply rd_ret.
Qed.
Lemma rd_slice q p type h : header_ok q p type h -> slice_known q p h -> Rd (get_slice q p type) (header_syntax q p type h) (shown_slice q h).
Proof.
  intros (E1 & E2 & E3 & C1 & C2 & N & FN & NF & GF & I1 & I2 & ORD & R1 & R2 & D1 & D2 & REFS) (KT & KC & KO & KR & KF).
  destruct (type_known _ KT) as [B P].
  assert (RD : has (e_redundant h) = negb (p_redundant p =? 0)) by (rewrite R1; destruct KR as [-> | ->]; reflexivity).
  unfold get_slice, header_syntax, shown_slice. cbv zeta.
  eapply rd_bind; [apply rd_ue, E1|]. eapply rd_bind; [apply rd_ue; unfold is_ue; lia|]. eapply rd_bind; [apply rd_ue, E3|].
  destruct (e_colour h); [cbn [has] in C1; congruence|]. cbn [app].
  eapply rd_bind; [apply rd_getn; [lia|exact FN]|].
  eapply rd_bind; [apply rd_field; assumption|].
  eapply rd_bind; [apply rd_opt_ue; [exact I1|exact I2]|].
  eapply rd_bind; [apply (rd_order_slice q p h); try assumption; reflexivity|].
  eapply rd_bind.
  { eapply rd_eq; [|reflexivity]. instantiate (1 := value (e_redundant h)). destruct (p_redundant p =? 0); cbn [negb] in RD; destruct (e_redundant h); try discriminate RD; [apply rd_ret|apply rd_ue, R2]. }
  eapply rd_bind.
  { instantiate (1 := e_direct h). rewrite B in D1. destruct (e_type h =? 1); destruct (e_direct h); try discriminate D1; [eapply rd_bind0; [apply rd_flag, D2|apply rd_ret]|apply rd_ret]. }
  eapply rd_bind0; [apply rd_refs; assumption|]. cbv zeta. apply rd_ret.
Qed.

(** * Messages *)
Lemma ffs_ones n s : ffs (repeat true (8 * n) ++ s) = (255 * Z.of_nat n + fst (ffs s), snd (ffs s)).
Proof.
  induction n as [|n IH]; [change (8 * 0)%nat with 0%nat; cbn [repeat app]; destruct (ffs s); reflexivity|].
  replace (8 * S n)%nat with (8 + 8 * n)%nat by lia. rewrite repeat_app, <- app_assoc. cbn [repeat app ffs]. rewrite IH. f_equal. lia.
Qed.
Lemma ffs_stop v s : 0 <= v < 255 -> ffs (field_bits v 8 ++ s) = (0, field_bits v 8 ++ s).
Proof.
  intro V. destruct (list_eq_dec Bool.bool_dec (field_bits v 8) (repeat true 8)) as [E|E].
  - assert (bits_val (field_bits v 8) = bits_val (repeat true 8)) as Q by (rewrite E; reflexivity). rewrite bits_val_field in Q. change (bits_val (repeat true 8)) with 255 in Q.
    change (2 ^ Z.of_nat 8) with 256 in Q. rewrite Z.mod_small in Q by lia. lia.
  - pose proof (field_bits_length v 8) as L. destruct (field_bits v 8) as [|[] [|[] [|[] [|[] [|[] [|[] [|[] [|[] [|? ?]]]]]]]]]; try discriminate L; try reflexivity. exfalso. apply E. reflexivity.
Qed.
Lemma rd_ff v : 0 <= v < 2 ^ 31 -> Rd ff_coded (ff_code v) v.
Proof.
  intros V rest. unfold ff_coded, ff_code. rewrite <- app_assoc, ffs_ones, ffs_stop by lia. cbn [fst snd].
  rewrite (rd_getb 8 (v mod 255)) by (unfold is_u; change (2 ^ Z.of_nat 8) with 256; lia). cbn [bindo fst snd].
  replace (255 * Z.of_nat (Z.to_nat (v / 255)) + 0 + v mod 255) with v by lia. replace (2 ^ 31 <=? v) with false by lia. reflexivity.
Qed.

Lemma field_mod v n : field_bits v n = field_bits (v mod 2 ^ Z.of_nat n) n. Proof. apply field_low. Qed.
Lemma rd_clock len c : 0 <= len < 32 -> clock_ok len c -> Rd (get_clock len) (clock_syntax len c) (clock_read len c).
Proof.
  intros L (T & N & C & D & DR & F & S0 & O). unfold get_clock, clock_syntax, clock_read.
  eapply rd_bind; [apply rd_getb, T|]. eapply rd_bind; [apply rd_flag, N|]. eapply rd_bind; [apply rd_getb, C|].
  eapply rd_bind with (x := match c_time c with Full _ _ _ => 1 | Parts _ => 0 end); [destruct (c_time c); [apply (rd_flag 1); right|apply (rd_flag 0); left]; reflexivity|].
  eapply rd_bind; [apply rd_flag, D|]. eapply rd_bind; [apply rd_flag, DR|]. eapply rd_bind; [apply rd_getb, F|].
  eapply rd_bind with (x := c_time c).
  { destruct (c_time c) as [s m h|o]; cbn [Z.eqb stamp_ok] in *.
    - destruct S0 as (A & B & E). eapply rd_bind; [apply rd_getb, A|]. eapply rd_bind; [apply rd_getb, B|]. eapply rd_bind0; [apply rd_getb, E|]. apply rd_ret.
    - eapply rd_bind0; [|apply rd_ret].
      apply (rd_opt _ _ (fun x => is_u 6 (fst x) /\ given (fun y => is_u 6 (fst y) /\ given (is_u 5) (snd y)) (snd x))); [|exact S0].
      intros [s m] [A B]. cbn [fst snd] in *. eapply rd_bind; [apply rd_getb, A|]. eapply rd_bind0; [|apply rd_ret].
      apply (rd_opt _ _ (fun y => is_u 6 (fst y) /\ given (is_u 5) (snd y))); [|exact B].
      intros [m' h] [A' B']. cbn [fst snd] in *. eapply rd_bind; [apply rd_getb, A'|]. eapply rd_bind0; [|apply rd_ret].
      apply (rd_opt _ _ (is_u 5)); [|exact B']. intros x X. apply rd_getb, X. }
  eapply rd_bind0; [|apply rd_ret]. destruct (Z.ltb_spec 0 len).
  - rewrite field_mod. replace (Z.of_nat (Z.to_nat len)) with len by lia. apply rd_getn; [lia|]. unfold is_u. replace (Z.of_nat (Z.to_nat len)) with len by lia. apply Z.mod_pos_bound. apply Z.pow_pos_nonneg; lia.
  - assert (len = 0) as -> by lia. cbn [Z.eqb] in O. rewrite O. apply rd_ret.
Qed.
Lemma rd_rep_map {A} (p : getter A) (f : A -> list bool) (g : A -> A) (P : A -> Prop) l : (forall x, P x -> Rd p (f x) (g x)) -> Forall P l -> Rd (rep (length l) p) (concat (map f l)) (map g l).
Proof.
  intro R. induction 1 as [|x l X FL IH]; [apply rd_ret|]. cbn [length rep map concat]. eapply rd_bind; [apply R, X|]. eapply rd_bind0; [apply IH|]. apply rd_ret.
Qed.
Lemma rd_opt_map {A} (p : getter A) (f : A -> list bool) (g : A -> A) (P : A -> Prop) o : (forall x, P x -> Rd p (f x) (g x)) -> given P o -> Rd (opt p) (when o f) (option_map g o).
Proof.
  intros R G. unfold opt. destruct o as [x|]; cbn [when given option_map] in *.
  - apply (rd_bind _ _ [true] (f x) 1); [apply (rd_flag 1); right; reflexivity|]. cbn [Z.eqb]. eapply rd_bind0; [apply R, G|apply rd_ret].
  - apply (rd_bind0 _ _ [false] 0); [apply (rd_flag 0); left; reflexivity|]. apply rd_ret.
Qed.
Lemma clocks_table ps n : 0 <= ps <= 8 -> Z.of_nat n = nth (Z.to_nat ps) clock_stamps 0 -> clocks ps = n.
Proof.
  intros P E. assert (In ps [0; 1; 2; 3; 4; 5; 6; 7; 8]) as M by (cbn [In]; lia). cbn [In] in M.
  destruct M as [<-|[<-|[<-|[<-|[<-|[<-|[<-|[<-|[<-|[]]]]]]]]]];
    (match type of E with _ = ?r => let v := eval vm_compute in r in change r with v in E end; match goal with |- ?c = _ => let v := eval vm_compute in c in change c with v end; lia).
Qed.
Lemma rd_timing q u t : q_vui q = Some u -> vui_ok u -> (u_nal u = None -> u_vcl u = None) -> timing_ok u t -> Rd (get_timing q) (timing_syntax u t) (timing_read u t).
Proof.
  intros V OK NV (D1 & D2 & S1 & S2). unfold get_timing. rewrite V.
  destruct OK as (_ & _ & _ & _ & _ & HN & HV & _ & _ & ST & _).
  assert (OL : 0 <= offset_length u < 32).
  { unfold offset_length, the_hrd. destruct (u_nal u) as [h|]; cbn [given] in HN; [destruct HN as (_ & _ & _ & _ & _ & _ & _ & HO); exact HO|]. rewrite NV by reflexivity. lia. }
  unfold timing_syntax, timing_read.
  assert (EL : (match u_nal u with Some h => (h_offset h, h_removal h + 1, h_output h + 1) | None => (0, 0, 0) end)
     = (offset_length u, match u_nal u with Some h => h_removal h + 1 | None => 0 end, match u_nal u with Some h => h_output h + 1 | None => 0 end)).
  { unfold offset_length, the_hrd. destruct (u_nal u); [reflexivity|]. rewrite NV by reflexivity. reflexivity. }
  rewrite EL. eapply rd_bind with (x := g_delays t).
  - unfold the_hrd in D1, D2 |- *. destruct (u_nal u) as [h|].
    + destruct (g_delays t) as [[a b]|]; [|discriminate D1]. destruct D2 as [A B]. cbn [given] in HN. destruct HN as (_ & _ & _ & _ & _ & HR & HO & _).
      unfold is_u in HR, HO. change (2 ^ Z.of_nat 5) with 32 in *. eapply rd_bind; [apply rd_getn; [lia|exact A]|]. eapply rd_bind0; [apply rd_getn; [lia|exact B]|]. apply rd_ret.
    + rewrite NV in * by reflexivity. destruct (g_delays t); [discriminate D1|]. apply rd_ret.
  - eapply rd_bind0; [|apply rd_ret]. destruct (g_struct t) as [[ps l]|]; cbn [has given fst snd] in *.
    + destruct (Z.eqb_spec (u_struct u) 1) as [U|]; [|discriminate S1]. rewrite U. cbn [Z.eqb]. destruct S2 as (R & N & F).
      eapply rd_bind; [apply rd_getb; unfold is_u; change (2 ^ Z.of_nat 4) with 16; lia|]. eapply rd_bind0; [|apply rd_ret].
      rewrite (clocks_table ps (length l) R N). apply (rd_rep_map _ _ _ (given (clock_ok (offset_length u)))); [|exact F].
      intros o G. apply (rd_opt_map _ _ _ (clock_ok (offset_length u))); [|exact G]. intros c C. apply rd_clock; assumption.
    + destruct ST as [U|U]; rewrite U in *; [apply rd_ret|discriminate S1].
Qed.

(** * Units *)
Lemma starts_rd {A} (g : getter A) r syn v : starts r syn -> Rd g syn v -> exists rest, bytes_bits (without_last_3 r) = syn ++ rest /\ g (bytes_bits (without_last_3 r)) = Ok (v, rest).
Proof.
  intros (_ & rest & E & L) R. unfold without_last_3. destruct (Z.eqb_spec (last r 0) 3) as [L3|L3]; [|exists rest; rewrite E; split; [reflexivity|apply R]].
  destruct (list_eq_dec Z.eq_dec r []) as [->|NE]; [discriminate L3|].
  pose proof (app_removelast_last 0 NE) as Q. rewrite L3 in Q.
  assert (E2 : bytes_bits (removelast r) ++ bytes_bits [3] = syn ++ rest) by (rewrite <- bytes_bits_app, <- Q; exact E).
  specialize (L L3). pose proof (f_equal (@length bool) E2) as LE. rewrite !app_length in LE. change (length (bytes_bits [3])) with 8%nat in LE.
  exists (firstn (length rest - 8) rest).
  assert (E3 : bytes_bits (removelast r) = syn ++ firstn (length rest - 8) rest).
  { pose proof (f_equal (firstn (length (bytes_bits (removelast r)))) E2) as F. rewrite firstn_app, Nat.sub_diag, firstn_all, firstn_O, app_nil_r in F.
    rewrite firstn_app in F. rewrite F at 1. rewrite firstn_all2 by lia. f_equal. f_equal. lia. }
  split; [exact E3|]. rewrite E3. apply R.
Qed.
Lemma unit_decoded type ref r : 0 <= type < 32 -> 0 <= ref <= 3 -> decode_nal (nal_unit type ref r) = Some (mknal ref type ((32 * ref + type) :: without_last_3 r)).
Proof.
  intros T R. unfold decode_nal, nal_unit. rewrite (proj1 (dec_esc r)). repeat f_equal; lia.
Qed.
Lemma unit_line_ok q p u l : line_of q p u l -> unit_line q p u = Ok l.
Proof.
  intros [type ref h r T R HO K S|ref pt ps r R PT N1 PS S|ref ps v t r R PS V VO NV TO S|type ref r T R]; unfold unit_line.
  - assert (T2 : 1 <= type <= 5) by (cbn [In] in T; lia). rewrite unit_decoded by lia. cbn [nal_unit_type rbsp tl nal_ref_idc length]. cbv zeta.
    replace ((1 <=? type) && (type <=? 5)) with true by lia. destruct (starts_rd _ r _ _ S (rd_slice q p type h HO K)) as (rest & E & G). rewrite G. cbn [bindo fst snd].
    do 2 f_equal; [|lia]. rewrite E, app_length. lia.
  - rewrite unit_decoded by lia. cbn [nal_unit_type rbsp tl]. cbv zeta. change ((1 <=? 6) && (6 <=? 5)) with false. change (6 =? 6) with true. cbv iota.
    assert (RD : Rd (let* a := ff_coded in let* b := ff_coded in gret (a, b)) (ff_code pt ++ ff_code ps) (pt, ps)).
    { eapply rd_bind; [apply rd_ff, PT|]. eapply rd_bind0; [apply rd_ff, PS|]. apply rd_ret. }
    destruct (starts_rd (fun s => Ok (tt, s)) r [] tt) as (rest0 & _ & _); [destruct S as (B & rest & E & L); split; [exact B|]; exists (bytes_bits r); split; [reflexivity|]|intro; reflexivity|].
    { intro L3. destruct r; [discriminate L3|]. rewrite bytes_bits_length. cbn [length]. lia. }
    destruct (starts_rd _ r _ _ S RD) as (rest & E & G). unfold gbind, gret in G. clear rest0.
    rewrite E in G |- *. rewrite <- app_assoc in G |- *. rewrite (rd_ff pt PT). cbn [bindo]. rewrite (rd_ff ps PS). cbn [bindo]. replace (pt =? 1) with false by lia. reflexivity.
  - rewrite unit_decoded by lia. cbn [nal_unit_type rbsp tl]. cbv zeta. change ((1 <=? 6) && (6 <=? 5)) with false. change (6 =? 6) with true. cbv iota.
    assert (RD : Rd (let* a := ff_coded in let* b := ff_coded in let* c := get_timing q in gret (a, b, c)) (ff_code 1 ++ ff_code ps ++ timing_syntax v t) (1, ps, timing_read v t)).
    { eapply rd_bind; [apply rd_ff; lia|]. eapply rd_bind; [apply rd_ff, PS|]. eapply rd_bind0; [apply rd_timing; assumption|]. apply rd_ret. }
    destruct (starts_rd _ r _ _ S RD) as (rest & E & G).
    rewrite E. rewrite <- !app_assoc. rewrite (rd_ff 1) by lia. cbn [bindo]. rewrite (rd_ff ps PS). cbn [bindo]. change (1 =? 1) with true. cbv iota.
    rewrite (rd_timing q v t V VO NV TO). reflexivity.
  - rewrite unit_decoded by lia. cbn [nal_unit_type rbsp tl]. cbv zeta. replace ((1 <=? type) && (type <=? 5)) with false by lia. replace (type =? 6) with false by lia. reflexivity.
Qed.

(** * Samples *)
Lemma length4 u : Z.of_nat (length u) < 2 ^ 32 ->
  exists a, with_length4 u = a ++ u /\ length a = 4%nat /\ Z.to_nat (fold_left (fun a b => a * 256 + b) a 0) = length u.
Proof.
  intro L. unfold with_length4. cbv zeta. eexists. split; [reflexivity|]. split; [reflexivity|]. cbn [fold_left].
  change (2 ^ 24) with 16777216. change (2 ^ 16) with 65536. change (2 ^ 32) with 4294967296 in L. set (n := Z.of_nat (length u)) in *. assert (0 <= n) by (unfold n; lia).
  replace ((((0 * 256 + n / 16777216) * 256 + n / 65536 mod 256) * 256 + n / 256 mod 256) * 256 + n mod 256) with n by lia. unfold n. lia.
Qed.
Lemma sample_ok q p us ls : Forall2 (line_of q p) us ls -> Forall (fun u => Z.of_nat (length u) < 2 ^ 32) us ->
  forall fuel, (length (concat (map with_length4 us)) <= fuel)%nat -> sample_lines fuel 4 q p (concat (map with_length4 us)) = Ok ls.
Proof.
  induction 1 as [|u l us ls U _ IH]; intros F fuel LE; [destruct fuel; reflexivity|].
  inversion F as [|? ? LU FU]; subst. cbn [map concat] in *. destruct (length4 u LU) as (a & E & LA & V). rewrite E in *. clear E.
  destruct fuel as [|k]; [rewrite !app_length in LE; lia|].
  rewrite !app_length in LE. cbn [sample_lines].
  destruct (((a ++ u) ++ concat (map with_length4 us))) as [|x0 t0] eqn:Q; [apply (f_equal (@length Z)) in Q; rewrite !app_length in Q; cbn [length] in Q; lia|]. rewrite <- Q. clear x0 t0 Q.
  rewrite <- app_assoc. rewrite !app_length, LA. destruct (Nat.leb_spec 4 (4 + (length u + length (concat (map with_length4 us))))); [|lia].
  rewrite firstn_app, LA. change (4 - 4)%nat with 0%nat. rewrite firstn_O, app_nil_r, firstn_all2 by lia. rewrite V. cbv zeta.
  destruct (Nat.leb_spec (4 + length u) (4 + (length u + length (concat (map with_length4 us))))); [|lia].
  rewrite skipn_app, LA, skipn_all2 by lia. change (4 - 4)%nat with 0%nat. cbn [skipn app]. rewrite firstn_app, Nat.sub_diag, firstn_O, app_nil_r, firstn_all.
  rewrite (unit_line_ok q p u l U). cbn [bindo].
  rewrite app_assoc, skipn_app, skipn_all2 by (rewrite app_length; lia). rewrite app_length, LA. replace (length u + 4 - (4 + length u))%nat with 0%nat by lia. cbn [skipn app].
  rewrite IH by (assumption || lia). reflexivity.
Qed.
Lemma frame_ok a q qs p ps us ls : a_sps a = q :: qs -> a_pps a = p :: ps -> get_nal_length_size a = 4 ->
  Forall2 (line_of q p) us ls -> Forall (fun u => Z.of_nat (length u) < 2 ^ 32) us -> frame_lines a (concat (map with_length4 us)) = Ok ls.
Proof. intros A B C F L. unfold frame_lines. rewrite A, B, C. change (Z.to_nat 4) with 4%nat. apply sample_ok; [assumption|assumption|apply le_n]. Qed.
