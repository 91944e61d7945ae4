(** Proofs for TsSect_model: the section reader over packets; filler packets. *)
From Coq Require Import ZifyNat.
From Verif Require Import Util Bits_spec Bits_lemmas TsTime_model Ts_model Ts_proofs Ts_proofs2 Ts_proofs3 Ts_proofs4 Ts_proofs5 Crc_model Crc_proofs Crc_proofs2 TsSect_model TsSect_proofs TsSect_proofs2.
Local Open Scope Z_scope.
Local Ltac Zify.zify_post_hook ::= Z.div_mod_to_equations.

(** header alone, with the length it declares *)
Definition head (table flags id version first last n : Z) : list Z := table :: be16 (flags * 4096 + n) ++ be16 id ++ [version; first; last].
Lemma section_head table flags id v f l body : iso_section table flags id v f l body = head table flags id v f l (5 + zlen body + 4) ++ body.
Proof. unfold iso_section, head. cbn [app]. rewrite <- !app_assoc. reflexivity. Qed.
Lemma head_length table flags id v f l n : length (head table flags id v f l n) = 8%nat.
Proof. reflexivity. Qed.
Lemma get_base_head {B} table flags id version first last n r (f : Z * Z * Z -> reader B) :
  is_byte table -> w16 id -> 0 <= n < 4096 ->
  bind get_base f (bytes_bits (head table flags id version first last n ++ r)) = f (table, n, id) (bytes_bits r).
Proof.
  intros H1 H2 H3. unfold get_base, head. rewrite bind_assoc. cbn [app]. rewrite b8 by exact H1. rewrite bind_assoc. rewrite <- !app_assoc.
  transitivity (bind (get 4) (fun x => bind (get 12) ((fun _ l => bind (i <- get 16 ;; _ <- get 24 ;; ret (table, l, i)) f) x)) (bytes_bits (be16 (flags * 4096 + n) ++ be16 id ++ [version; first; last] ++ r))).
  { apply bind_ext. intros. apply bind_assoc. }
  rewrite b412 by lia. rewrite bind_assoc. rewrite b16 by exact H2. rewrite bind_assoc. cbn [app].
  destruct (b24 version first last r (fun _ => bind (ret (table, n, id)) f)) as [v E]. rewrite E. reflexivity.
Qed.
Lemma bind_id {A} (p : reader A) bs : bind p (fun x => ret x) bs = p bs.
Proof. unfold bind, ret. destruct (p bs) as [[x r]|]; reflexivity. Qed.
Lemma process_head {A} align tid (p : reader A) table flags id v f l n r :
  is_byte table -> w16 id -> 0 <= n < 4096 ->
  psi_process align tid p (0 :: head table flags id v f l n ++ r) =
  (if negb (table =? tid) then Waiting else
   if zlen (0 :: head table flags id v f l n ++ r) <? n then Waiting else
   match p (bytes_bits (head table flags id v f l n ++ r)) with
   | None => EndOfDataThrown
   | Some (x, _) => Table x (crc_32 align (firstn (Z.to_nat (n + 3 - 4)) (head table flags id v f l n ++ r)) 0xFFFFFFFF)
   end).
Proof.
  intros H1 H2 H3. unfold psi_process. rewrite !pointer0. rewrite <- (bind_id get_base). rewrite get_base_head by assumption. unfold ret.
  cbn [skipn]. reflexivity.
Qed.
(** the whole section, and anything after it *)
Lemma process_table {A} align (p : reader A) table flags id v f l body c tail x r :
  is_byte table -> 0 <= flags < 16 -> w16 id -> is_byte v -> is_byte f -> is_byte l -> bytes body -> zlen body < 4087 ->
  p (bytes_bits (iso_section table flags id v f l body ++ be32 c ++ tail)) = Some (x, r) ->
  psi_process align table p (0 :: iso_section table flags id v f l body ++ be32 c ++ tail) = Table x (crc_spec (iso_section table flags id v f l body)).
Proof.
  intros H1 H2 H3 H4 H5 H6 H7 H8 E. pose proof (zlen_nonneg body).
  assert (B : bytes (iso_section table flags id v f l body)) by (apply iso_section_bytes; assumption).
  pose proof (zlen_section table flags id v f l body) as Z0.
  set (sec := iso_section table flags id v f l body) in *. pose proof (section_head table flags id v f l body) as SH. fold sec in SH.
  transitivity (psi_process align table p (0 :: head table flags id v f l (5 + zlen body + 4) ++ (body ++ be32 c ++ tail))).
  { rewrite SH, <- app_assoc. reflexivity. }
  rewrite process_head by (try assumption; lia). rewrite Z.eqb_refl. cbn [negb]. rewrite app_assoc, <- SH. rewrite E.
  destruct (Z.ltb_spec (zlen (0 :: sec ++ be32 c ++ tail)) (5 + zlen body + 4)) as [F|_].
  { rewrite zlen_cons, !zlen_app in F. pose proof (zlen_nonneg tail). change (zlen (be32 c)) with 4 in F. lia. }
  f_equal. replace (Z.to_nat (5 + zlen body + 4 + 3 - 4)) with (length sec) by (unfold zlen in *; lia).
  rewrite firstn_app, Nat.sub_diag, firstn_all, firstn_O, app_nil_r. rewrite crc_32_eq by (try exact B; unfold w32; lia). reflexivity.
Qed.
(** a prefix shorter than the declared length *)
Lemma firstn_split {A} k (a b : list A) : (length a <= k)%nat -> firstn k (a ++ b) = a ++ firstn (k - length a) b.
Proof. intros H. rewrite firstn_app, firstn_all2 by exact H. reflexivity. Qed.
Lemma prefix_head table flags id v f l body rest k : (9 <= k)%nat ->
  firstn k (0 :: iso_section table flags id v f l body ++ rest) = 0 :: head table flags id v f l (5 + zlen body + 4) ++ firstn (k - 9) (body ++ rest).
Proof.
  intros H. destruct k as [|k]; [lia|]. cbn [firstn]. f_equal. rewrite section_head, <- app_assoc. rewrite firstn_split by (rewrite head_length; lia).
  rewrite head_length. replace (k - 8)%nat with (S k - 9)%nat by lia. reflexivity.
Qed.
Lemma process_prefix {A} align (p : reader A) table flags id v f l body rest k :
  is_byte table -> w16 id -> zlen body < 4087 -> (9 <= k)%nat -> Z.of_nat k < 5 + zlen body + 4 ->
  psi_process align table p (firstn k (0 :: iso_section table flags id v f l body ++ rest)) = Waiting.
Proof.
  intros H1 H2 H3 H4 H5. pose proof (zlen_nonneg body). rewrite prefix_head by exact H4. rewrite process_head by (try assumption; lia).
  rewrite Z.eqb_refl. cbn [negb]. destruct (Z.ltb_spec (zlen (0 :: head table flags id v f l (5 + zlen body + 4) ++ firstn (k - 9) (body ++ rest))) (5 + zlen body + 4)) as [_|F]; [reflexivity|].
  rewrite zlen_cons, zlen_app in F. change (zlen (head table flags id v f l (5 + zlen body + 4))) with 8 in F.
  assert (zlen (firstn (k - 9) (body ++ rest)) <= Z.of_nat (k - 9)) by (unfold zlen; pose proof (firstn_le_length (k - 9) (body ++ rest)); lia). lia.
Qed.

(** readers that work on a prefix give the same with more input *)
Definition stable {A} (p : reader A) : Prop := forall bs x r e, p bs = Some (x, r) -> p (bs ++ e) = Some (x, r ++ e).
Lemma stable_ret {A} (x : A) : stable (ret x).
Proof. intros bs y r e H. injection H as <- <-. reflexivity. Qed.
Lemma stable_fail {A} : stable (@fail A).
Proof. intros bs x r e H. discriminate H. Qed.
Lemma stable_get n : stable (get n).
Proof.
  intros bs x r e H. unfold get in *. rewrite app_length. destruct (Nat.ltb_spec (length bs) n); [discriminate|].
  destruct (Nat.ltb_spec (length bs + length e) n); [lia|]. injection H as <- <-.
  rewrite firstn_app, skipn_app. replace (n - length bs)%nat with 0%nat by lia. rewrite firstn_O, app_nil_r. reflexivity.
Qed.
Lemma stable_bind {A B} (p : reader A) (f : A -> reader B) : stable p -> (forall x, stable (f x)) -> stable (bind p f).
Proof.
  intros Hp Hf bs x r e H. unfold bind in *. destruct (p bs) as [[y s]|] eqn:E; [|discriminate]. rewrite (Hp _ _ _ _ E). apply Hf. exact H.
Qed.
Ltac st := repeat first [apply stable_bind; [|intros ?] | apply stable_get | apply stable_ret | apply stable_fail].
Lemma stable_base : stable get_base. Proof. unfold get_base. st. Qed.
Lemma stable_programs n : stable (get_programs n). Proof. induction n; cbn [get_programs]; st. exact IHn. Qed.
Lemma stable_bytes n : stable (get_bytes n). Proof. induction n; cbn [get_bytes]; st. exact IHn. Qed.
Lemma stable_descriptors n : forall t, stable (get_descriptors n t).
Proof. induction n; intros t; cbn [get_descriptors]; destruct (t <=? 0); unfold get_descriptor; st; [apply stable_bytes|apply IHn]. Qed.
Lemma stable_streams n : forall t, stable (get_streams n t).
Proof. induction n; intros t; cbn [get_streams]; destruct (t <=? 0); st; [apply stable_descriptors|apply IHn]. Qed.
Lemma stable_pat : stable get_pat.
Proof. unfold get_pat. apply stable_bind; [apply stable_base|]. intros [[? ?] ?]. st. apply stable_programs. Qed.
Lemma stable_pmt : stable get_pmt.
Proof. unfold get_pmt. apply stable_bind; [apply stable_base|]. intros [[? ?] ?]. st; [apply stable_descriptors|apply stable_streams]. Qed.
Lemma process_gap {A} align (p : reader A) table flags id v f l body c k x :
  is_byte table -> w16 id -> zlen body < 4087 -> stable p ->
  p (bytes_bits (iso_section table flags id v f l body ++ be32 c)) = Some (x, []) ->
  5 + zlen body + 4 <= Z.of_nat k < 5 + zlen body + 4 + 4 ->
  psi_process align table p (firstn k (0 :: iso_section table flags id v f l body ++ be32 c)) = EndOfDataThrown.
Proof.
  intros H1 H2 H3 St E Hk. pose proof (zlen_nonneg body). rewrite prefix_head by lia. rewrite process_head by (try assumption; lia).
  rewrite Z.eqb_refl. cbn [negb].
  set (rest := firstn (k - 9) (body ++ be32 c)). set (h := head table flags id v f l (5 + zlen body + 4)) in *.
  assert (L : length rest = (k - 9)%nat).
  { unfold rest. rewrite firstn_length, app_length. change (length (be32 c)) with 4%nat. unfold zlen in *. lia. }
  destruct (Z.ltb_spec (zlen (0 :: h ++ rest)) (5 + zlen body + 4)) as [F|_].
  { rewrite zlen_cons, zlen_app in F. change (zlen h) with 8 in F. assert (zlen rest = Z.of_nat (k - 9)) by (unfold zlen; rewrite L; reflexivity). lia. }
  destruct (p (bytes_bits (h ++ rest))) as [[y s]|] eqn:EP; [exfalso|reflexivity].
  apply (St _ _ _ (bytes_bits (skipn (k - 9) (body ++ be32 c)))) in EP. rewrite <- bytes_bits_app, <- app_assoc in EP. unfold rest in EP. rewrite firstn_skipn in EP.
  unfold h in EP. rewrite app_assoc, <- section_head in EP. rewrite E in EP. injection EP as _ EP. symmetry in EP. apply app_eq_nil in EP as [_ EP].
  apply (f_equal (@length bool)) in EP. rewrite bytes_bits_length, skipn_length, app_length in EP. change (length (be32 c)) with 4%nat in EP. cbn [length] in EP. unfold zlen in *. lia.
Qed.

(** * Feeding packets *)
Lemma psi_feed_cont {A} align tid (p : reader A) all fin : forall ts pre, 
  Forall (fun t => t_tei t = 0 /\ t_pay t = 1 /\ (t_af t = 1 -> t_aflen t <= 183) /\ t_payload t <> []) ts -> Forall (fun t => t_pusi t = 0) ts ->
  pre ++ concat (map t_payload ts) = all ->
  (forall i, (0 < i < length ts)%nat -> psi_process align tid p (pre ++ concat (map t_payload (firstn i ts))) = Waiting) ->
  psi_process align tid p all = fin -> ts <> [] ->
  psi_feed align tid p pre ts = repeat Waiting (length ts - 1) ++ [fin].
Proof.
  induction ts as [|t ts IH]; intros pre H U E W F N; [congruence|]. clear N.
  destruct (Forall_inv H) as (T & Y & _ & _). pose proof (Forall_inv U) as P. cbn beta in P.
  cbn [psi_feed]. unfold psi_add. rewrite T, P, Y. cbn [Z.eqb Pos.eqb]. cbn [map concat] in E.
  destruct ts as [|t' ts].
  - cbn [map concat] in E. rewrite app_nil_r in E. rewrite E, F. reflexivity.
  - rewrite (IH (pre ++ t_payload t)).
    + cbn [length]. replace (S (S (length ts)) - 1)%nat with (S (length ts)) by lia. replace (S (length ts) - 1)%nat with (length ts) by lia.
      specialize (W 1%nat ltac:(cbn [length]; lia)). cbn [firstn map concat] in W. rewrite app_nil_r in W. rewrite W. reflexivity.
    + exact (Forall_inv_tail H).
    + exact (Forall_inv_tail U).
    + rewrite <- app_assoc. exact E.
    + intros i Hi. specialize (W (S i) ltac:(cbn [length] in *; lia)). cbn [firstn map concat] in W. rewrite <- app_assoc. exact W.
    + exact F.
    + discriminate.
Qed.
Lemma psi_feed_unit {A} align tid (p : reader A) all fin pre ts : carries ts all ->
  (forall i, (0 < i < length ts)%nat -> psi_process align tid p (concat (map t_payload (firstn i ts))) = Waiting) ->
  psi_process align tid p all = fin ->
  psi_feed align tid p pre ts = repeat Waiting (length ts - 1) ++ [fin].
Proof.
  intros (E & U & H) W F. destruct ts as [|t ts]; [destruct U|]. destruct U as [P U]. destruct (Forall_inv H) as (T & Y & _ & _).
  destruct ts as [|t' ts].
  - cbn [psi_feed]. unfold psi_add. rewrite T, P, Y. cbn [Z.eqb Pos.eqb]. cbn [map concat app] in *. rewrite app_nil_r in E. rewrite E, F. reflexivity.
  - cbn [psi_feed]. unfold psi_add. rewrite T, P, Y. cbn [Z.eqb Pos.eqb]. cbn [app].
    pose proof (W 1%nat ltac:(cbn [length]; lia)) as W1. cbn [firstn map concat] in W1. rewrite app_nil_r in W1. rewrite W1.
    pose proof (psi_feed_cont align tid p all fin (t' :: ts) (t_payload t) (Forall_inv_tail H) U E) as Q. cbn [psi_feed] in Q. unfold psi_add in Q. rewrite Q.
    + cbn [length]. replace (S (S (length ts)) - 1)%nat with (S (length ts)) by lia. replace (S (length ts) - 1)%nat with (length ts) by lia. reflexivity.
    + intros i Hi. specialize (W (S i) ltac:(cbn [length] in *; lia)). exact W.
    + exact F.
    + discriminate.
Qed.
Lemma carries_prefix ts all i : concat (map t_payload ts) = all -> concat (map t_payload (firstn i ts)) = firstn (length (concat (map t_payload (firstn i ts)))) all.
Proof.
  intros <-. rewrite <- (firstn_skipn i ts) at 3. rewrite map_app, concat_app, firstn_app, Nat.sub_diag, firstn_O, app_nil_r, firstn_all. reflexivity.
Qed.
Lemma feed_section {A} align (p : reader A) table flags id v f l body c x r pre ts :
  is_byte table -> 0 <= flags < 16 -> w16 id -> is_byte v -> is_byte f -> is_byte l -> bytes body -> zlen body < 4087 ->
  p (bytes_bits (iso_section table flags id v f l body ++ be32 c)) = Some (x, r) ->
  carries ts (0 :: iso_section table flags id v f l body ++ be32 c) ->
  (forall i, (0 < i < length ts)%nat -> 9 <= zlen (concat (map t_payload (firstn i ts))) < 5 + zlen body + 4) ->
  psi_feed align table p pre ts = repeat Waiting (length ts - 1) ++ [Table x (crc_spec (iso_section table flags id v f l body))].
Proof.
  intros H1 H2 H3 H4 H5 H6 H7 H8 E C W. eapply psi_feed_unit; [exact C| |].
  - intros i Hi. rewrite (carries_prefix ts _ i (proj1 C)). specialize (W i Hi). set (m := length (concat (map t_payload (firstn i ts)))) in *. change (zlen (concat (map t_payload (firstn i ts)))) with (Z.of_nat m) in W. apply process_prefix; try assumption; lia.
  - rewrite <- (app_nil_r (be32 c)). eapply process_table; try assumption. rewrite app_nil_r. exact E.
Qed.

(** * Filler packets *)
Lemma fill_loop_ok pid : 0 <= pid < 8192 -> forall n cc k, 0 <= cc < 256 -> (cc + Z.of_nat n) mod 16 = 0 -> Z.of_nat n <= 15 -> (n <= k)%nat ->
  exists l, fill_loop k pid cc = Some (l, (cc + Z.of_nat n) mod 256) /\ length l = n /\
    forall i p, nth_error l i = Some p -> is_ts pid 0 (cc + Z.of_nat i) 0 None [] p.
Proof.
  intros Hp. induction n as [|n IH]; intros cc k Hc Hm Hn Hk.
  - exists []. assert (L : Z.land 15 cc = 0) by (rewrite Z.land_comm; change 15 with (Z.ones 4); rewrite Z.land_ones by lia; change (2 ^ 4) with 16; lia).
    split; [|split; [reflexivity|intros [|i] p H; discriminate]]. assert (E : Some (@nil (list Z), cc) = Some ([], (cc + Z.of_nat 0) mod 256)) by (f_equal; f_equal; lia).
    destruct k; cbn [fill_loop]; rewrite L; exact E.
  - destruct k as [|k]; [lia|]. cbn [fill_loop]. assert (L : Z.land 15 cc <> 0) by (rewrite Z.land_comm; change 15 with (Z.ones 4); rewrite Z.land_ones by lia; change (2 ^ 4) with 16; lia).
    destruct (Z.eqb_spec (Z.land 15 cc) 0); [contradiction|].
    destruct (IH ((cc + 1) mod 256) k ltac:(lia) ltac:(lia) ltac:(lia) ltac:(lia)) as (l & E & Ll & F). rewrite E.
    eexists. split; [f_equal; f_equal; lia|]. split; [cbn [length]; lia|].
    intros [|i] p H; cbn [nth_error] in H.
    + injection H as <-. rewrite Z.add_0_r. apply adapt_ts; [lia|lia|lia|apply Forall_nil|reflexivity|right; cbn; lia|exact I].
    + specialize (F i p H). destruct F; split; try assumption. rewrite it_cc. lia.
Qed.
Lemma fill_ok pid cc : 0 <= pid < 8192 -> 0 <= cc < 256 ->
  exists l c, fill_pid pid cc = Some (l, c) /\ c = (cc + zlen l) mod 256 /\ c mod 16 = 0 /\ zlen l < 16 /\
    forall i p, nth_error l i = Some p -> is_ts pid 0 (cc + Z.of_nat i) 0 None [] p.
Proof.
  intros Hp Hc. destruct (fill_loop_ok pid Hp (Z.to_nat ((- cc) mod 16)) cc 16) as (l & E & L & F); try lia.
  exists l. eexists. split; [exact E|]. unfold zlen. rewrite L. split; [reflexivity|]. split; [lia|]. split; [lia|exact F].
Qed.

(** * One packet is enough for small sections *)
Lemma output_one pid data cc : zlen data <= 184 -> forall l c, output_ts pid data false None cc = Packets l c -> exists p, l = [p].
Proof.
  intros H l c E. unfold output_ts in E. cbn [present orb] in E. pose proof (zlen_nonneg data).
  match type of E with (if ?b then _ else _) = _ => destruct b; [discriminate E|] end.
  assert (Q : Z.to_nat (Z.quot (zlen data - 184) 184) = 0%nat).
  { destruct (Z.eq_dec (zlen data) 184) as [->|N]; [reflexivity|]. replace (zlen data - 184) with (- (184 - zlen data)) by lia. rewrite Z.quot_opp_l by lia.
    pose proof (Z.quot_pos (184 - zlen data) 184 ltac:(lia) ltac:(lia)). lia. }
  rewrite Q in E. cbn [full_packets] in E.
  assert (R : 0 <? Z.rem (zlen data - 184) 184 = false).
  { apply Z.ltb_ge. replace (zlen data - 184) with (- (184 - zlen data)) by lia. rewrite Z.rem_opp_l by lia. pose proof (Z.rem_bound_pos (184 - zlen data) 184 ltac:(lia) ltac:(lia)). lia. }
  rewrite R in E. injection E as <- _. eexists. reflexivity.
Qed.
Lemma write_feed {A} align (p : reader A) pid cc data x : 0 <= pid < 8192 -> 0 <= cc < 256 -> bytes data -> data <> [] -> zlen data <= 184 ->
  exists b c, output_ts pid data false None cc = Packets [b] c /\ forall table fuel pre, (1 <= fuel)%nat ->
    psi_process align table p data = x -> psi_feed align table p pre (get_packets fuel b) = [x].
Proof.
  intros Hp Hc Hb Hn Hl. destruct (output_ts_spec pid data false None cc Hp Hb Hc I ltac:(discriminate)) as (p1 & l & c & E & I & D & U & _ & _ & _ & R & _ & _ & S & N).
  destruct (output_one pid data cc Hl _ _ E) as [q Eq]. injection Eq as -> ->. exists q, c. split; [exact E|]. intros table fuel pre Hf EP.
  destruct (get_packets_ok pid [q] fuel) as (ts & ET & F); [|exact Hf|].
  { constructor; [|constructor]. split; [exact (Forall_inv I)|exact (Forall_inv S)]. }
  cbn [concat] in ET. rewrite app_nil_r in ET. rewrite ET.
  assert (C : carries ts data).
  { rewrite <- D. apply rd_carries; [exact F|split; [exact U|constructor]|exact (N Hn)]. }
  assert (L : length ts = 1%nat) by (clear -F; inversion F as [|? ? ? ? ? F']; inversion F'; reflexivity).
  rewrite (psi_feed_unit align table p data x pre ts C); [rewrite L; reflexivity|intros i Hi; lia|exact EP].
Qed.

(** * Filler packets repeat a unit of declared length *)
Definition filler (t : tp) : Prop := t_tei t = 0 /\ t_pusi t = 0 /\ t_pay t = 1 /\ (t_af t = 1 -> t_aflen t <= 183) /\ t_payload t = [].
Lemma fillers_repeat u ts : u_ok u -> bounded u -> Forall filler ts ->
  add_all (mkps (u_bytes u) true true (Some (u_rb u)) (u_sid u)) ts = (mkps (u_bytes u) true true (Some (u_rb u)) (u_sid u), repeat (Received (u_body u)) (length ts)).
Proof.
  intros U B. induction 1 as [|t ts (T & P & Y & AF & PL) H IH]; [reflexivity|]. cbn [add_all length repeat].
  assert (E : add (mkps (u_bytes u) true true (Some (u_rb u)) (u_sid u)) t = process (mkps (u_bytes u) true true (Some (u_rb u)) (u_sid u))).
  { unfold add. rewrite T, P, Y, PL. cbn [Z.eqb Pos.eqb andb].
    assert (X : (t_af t =? 1) && (183 <? t_aflen t) = false).
    { destruct (Z.eqb_spec (t_af t) 1) as [e|]; [|reflexivity]. specialize (AF e). apply Z.ltb_ge. exact AF. }
    rewrite X. cbn [s_payload s_gotfirst s_has s_data s_sid orb]. rewrite app_nil_r. destruct (process _); reflexivity. }
  rewrite E. rewrite (process_full u) by (try assumption; try reflexivity; right; reflexivity). cbn [s_gotfirst]. rewrite IH. reflexivity.
Qed.
Lemma filler_dup u l ts : u_ok u -> bounded u -> carries l (u_bytes u) -> Forall filler ts ->
  reassemble (l ++ ts) = repeat (Received (u_body u)) (S (length ts)).
Proof.
  intros U B C F. unfold reassemble. rewrite add_all_app. rewrite (unit_bnd u) by (try assumption; left; reflexivity).
  cbn [flush ps0 s_gotfirst snd app]. rewrite fillers_repeat by assumption.
  pose proof (flush_bnd u (u_sid u) B) as Q. unfold flush in Q. cbn [s_gotfirst] in Q. rewrite Q. cbn [snd]. rewrite app_nil_r. reflexivity.
Qed.
