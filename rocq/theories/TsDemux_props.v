(** Property C57: what the demultiplexer hands on. *)
From Coq Require Import ZifyNat.
From Verif Require Import Util Bits_spec TsTime_model Ts_model Ts_proofs Ts_proofs2 Ts_proofs3 Ts_proofs4 Ts_proofs5 Crc_model TsSect_model TsDemux_model TsDemux_proofs TsDemux_proofs2 TsDemux_proofs3.
Local Open Scope Z_scope.

(** * C57 *)
(** Every unit of a stream is handed on once, whole and in order, whatever the other streams are
    and however the packets are interleaved, if the last unit declares its length. *)
Theorem C57_all : forall align streams units l ty pid ds us x, transport streams units l -> In (ty, pid, ds) streams -> starts_recognisable ty (units pid) ->
  units pid = us ++ [x] -> declares (fst x) -> Forall2 (fun x e => exists f, hands_on (fst x) f e) (units pid) (of_pid pid (dm_run align dm0 l)).
Proof. intros align streams units l ty pid ds us x T I R E D. apply units_hand; [exact (transport_ok streams units l ty pid ds T I)|]. rewrite (whole_expect align streams units l T ty pid ds I R), E. apply expect_bodies, decl_is. exact D. Qed.
Print Assumptions C57_all.
(** If all units declare their lengths, each comes with the random access indicator of its own
    packets. *)
Theorem C57_keys : forall align streams units l ty pid ds, transport streams units l -> In (ty, pid, ds) streams -> starts_recognisable ty (units pid) ->
  Forall (fun x => declares (fst x)) (units pid) -> Forall2 (fun x e => hands_on (fst x) (first_indicator (snd x)) e) (units pid) (of_pid pid (dm_run align dm0 l)).
Proof. intros align streams units l ty pid ds T I R D. pose proof (transport_ok streams units l ty pid ds T I) as U. rewrite (whole_expect align streams units l T ty pid ds I R). rewrite expect_decl; [clear - U; induction U; cbn [map]; constructor; [apply hands_rb; assumption|assumption]|]. eapply Forall_impl; [|exact D]. intros x. apply decl_is. Qed.
Print Assumptions C57_keys.
(** Reading goes on to the end: no exception, no read outside a packet. *)
Theorem C57_to_the_end : forall align streams units l e, transport streams units l -> streams <> [] -> In e (dm_run align dm0 l) -> exists pid b f h, e = MUnit pid (DUnit b f h) \/ e = MUnit pid DIncomplete.
Proof.
  intros align streams units l e T NE I. destruct streams as [|[[ty pid] ds] streams]; [congruence|]. destruct (whole_run align _ units l T ty pid ds (or_introl eq_refl)) as [_ F].
  assert (M : mfatal e = false) by (destruct (mfatal e) eqn:M; [|reflexivity]; rewrite <- F; symmetry; apply existsb_exists; exists e; split; assumption).
  destruct e as [q [b f h| | |]|]; try discriminate M; [exists q, b, f, h; left; reflexivity|exists q, [], None, None; right; reflexivity].
Qed.
Print Assumptions C57_to_the_end.
(** What a stream gives depends on its own packets only. *)
Theorem C57_isolated : forall align align' streams streams' units units' l l' ty pid ds ds', transport streams units l -> transport streams' units' l' ->
  In (ty, pid, ds) streams -> In (ty, pid, ds') streams' -> units pid = units' pid -> of_pid pid (dm_run align dm0 l) = of_pid pid (dm_run align' dm0 l').
Proof.
  intros align align' streams streams' units units' l l' ty pid ds ds' T T' I I' E. destruct (whole_run align _ units l T ty pid ds I) as [-> _]. destruct (whole_run align' _ units' l' T' ty pid ds' I') as [-> _]. rewrite E. reflexivity.
Qed.
Print Assumptions C57_isolated.
(** With the library's own writer: the units written come back, and are key frames exactly if they
    were written as such. *)
Theorem C57_written : forall align streams units l ty pid ds sid cc us, transport streams units l -> In (ty, pid, ds) streams -> 0 <= pid < 8192 -> 0 <= cc < 256 ->
  Forall unit_fits us -> Forall (fun x => declares (fst (fst x)) /\ u_sid (fst (fst x)) = sid) us -> match us with [] => True | x :: _ => recognisable ty (u_bytes (fst (fst x))) end ->
  (exists b, write_units pid cc us = Some b /\ concat (map snd (units pid)) = get_packets (length b) b) ->
  Forall2 (fun x e => exists f, hands_on (fst (fst x)) f e /\ iframe f = snd (fst x)) us (of_pid pid (dm_run align dm0 l)).
Proof.
  intros align streams units l ty pid ds sid cc us T I Hp Hc UF D R (b & WB & E). destruct (whole_run align _ units l T ty pid ds I) as [-> _]. rewrite E.
  destruct (written pid us cc Hp Hc UF) as (b' & WB' & P). rewrite WB in WB'. injection WB' as <-. destruct (P (length b) (Nat.le_refl _)) as (tss & -> & F).
  set (vs := combine (map (fun x => fst (fst x)) us) tss).
  assert (Q : map snd vs = tss /\ stream_units sid vs /\ Forall (fun x => is_decl (fst x) = true) vs /\ Forall2 (fun x v => fst v = fst (fst x) /\ u_ok (fst v) /\ iframe (first_indicator (snd v)) = snd (fst x)) us vs).
  { unfold vs. clear - F D UF. revert UF D. induction F as [|x ts us tss [C K] F IH]; intros UF D; [split; [reflexivity|split; [constructor|split; constructor]]|].
    inversion D as [|? ? [D1 D2] D3]. inversion UF as [|? ? U1 U2]. subst. destruct (IH U2 D3) as (I1 & I2 & I3 & I4). cbn [map combine snd fst]. split; [rewrite I1; reflexivity|]. split; [|split].
    - constructor; [|exact I2]. cbn [fst snd]. destruct x as [[u rai] pcr]. cbn [fst snd] in *. destruct U1 as (U & _). split; [exact U|]. split; [exact C|]. left. split; [exact D1|reflexivity].
    - constructor; [apply decl_is; exact D1|exact I3].
    - constructor; [|exact I4]. cbn [fst snd]. destruct x as [[u rai] pcr]. cbn [fst snd] in *. destruct U1 as (U & _). split; [reflexivity|]. split; [exact U|exact K]. }
  destruct Q as (Q1 & Q2 & Q3 & Q4). rewrite <- Q1. rewrite (feed_recog ty sid vs Q2).
  - rewrite expect_decl by exact Q3. clear - Q4. induction Q4 as [|x v us vs (A & U & B) F IH]; [constructor|]. cbn [map]. constructor; [|exact IH]. eexists. split; [rewrite <- A; apply hands_rb; exact U|exact B].
  - clear - Q2 Q4 R F. unfold vs in *. destruct F as [|x ts us tss [C K] F]; [exact I|]. cbn [map combine starts_recognisable]. exists ts, []. split; [rewrite app_nil_r; reflexivity|]. destruct C as (-> & _). exact R.
Qed.
Print Assumptions C57_written.
(** Refuted: every unit is handed on.  A last unit of open length (the frames of 65535 bytes or
    more) is not, since nobody ends the stream. *)
Theorem C57_last_open_refuted : forall align streams units l ty pid ds us x, transport streams units l -> In (ty, pid, ds) streams -> starts_recognisable ty (units pid) ->
  units pid = us ++ [x] -> leaves_open (fst x) -> Forall2 (fun x e => exists f, hands_on (fst x) f e) us (of_pid pid (dm_run align dm0 l)).
Proof. intros align streams units l ty pid ds us x T I R E D. apply units_hand; [pose proof (transport_ok streams units l ty pid ds T I) as U; rewrite E in U; apply Forall_app in U as [U _]; exact U|]. rewrite (whole_expect align streams units l T ty pid ds I R), E. apply expect_last_open, open_is. exact D. Qed.
Print Assumptions C57_last_open_refuted.
(** Refuted: each unit comes with its own indicator.  After a unit of open length the next one
    comes with the indicator of that unit. *)
Theorem C57_after_open_refuted : forall align streams units l ty pid ds u ps v qs us r, transport streams units l -> In (ty, pid, ds) streams -> starts_recognisable ty (units pid) ->
  units pid = (u, ps) :: (v, qs) :: us -> leaves_open u -> declares v -> first_indicator ps = Some r ->
  exists e1 e2 rest, of_pid pid (dm_run align dm0 l) = e1 :: e2 :: rest /\ hands_on u (Some r) e1 /\ hands_on v (Some r) e2.
Proof.
  intros align streams units l ty pid ds u ps v qs us r T I R E O D F. pose proof (transport_ok streams units l ty pid ds T I) as U. rewrite E in U. inversion U as [|? ? U1 U2]. inversion U2 as [|? ? U3 _]. subst.
  rewrite (whole_expect align streams units l T ty pid ds I R), E. cbn [expect]. cbv zeta. rewrite (open_is u O), (decl_is v D), F. cbn [merge]. eexists _, _, _. split; [reflexivity|]. split; apply hands_rb; assumption.
Qed.
Print Assumptions C57_after_open_refuted.
(** and in a stream of open units only, all come with the indicator of the first *)
Theorem C57_all_open_refuted : forall align streams units l ty pid ds u ps us r, transport streams units l -> In (ty, pid, ds) streams -> starts_recognisable ty (units pid) ->
  units pid = (u, ps) :: us -> Forall (fun x => leaves_open (fst x)) (units pid) -> first_indicator ps = Some r -> Forall (fun e => exists b h, e = DUnit b (Some r) h) (of_pid pid (dm_run align dm0 l)).
Proof.
  intros align streams units l ty pid ds u ps us r T I R E O F. rewrite (whole_expect align streams units l T ty pid ds I R), E. rewrite E in O. inversion O as [|? ? O1 O2]. subst. cbn [expect fst] in *. cbv zeta. rewrite (open_is u O1), F. cbn [merge]. destruct us; [constructor|].
  constructor; [eexists _, _; reflexivity|]. apply expect_all_open. eapply Forall_impl; [|exact O2]. intros x. apply open_is.
Qed.
Print Assumptions C57_all_open_refuted.
(** Refuted: every stream is handed on.  A video stream with no unit of 100 bytes, an audio stream
    with none of 30, gives nothing. *)
Theorem C57_small_refuted : forall align streams units l ty pid ds, transport streams units l -> In (ty, pid, ds) streams -> small_units ty (units pid) -> of_pid pid (dm_run align dm0 l) = [].
Proof.
  intros align streams units l ty pid ds T I R. destruct (whole_run align streams units l T ty pid ds I) as [-> _]. destruct T as (tpat & tpmt & n & rest & _ & _ & _ & _ & _ & _ & _ & _ & H). destruct (H ty pid ds I) as (_ & (sid & S) & _). exact (feed_small ty sid _ S R).
Qed.
Print Assumptions C57_small_refuted.

(** * A stream which meets the hypotheses *)
Definition ex_packets (pid cc : Z) (u : unit_t) (rai : bool) : list tp := match write_units pid cc [(u, rai, None)] with Some b => get_packets (length b) b | None => [] end.
Definition ex_table (pid : Z) (data : list Z) : tp := match output_ts pid data false None 0 with Packets [p] _ => match get_packets 1 p with t :: _ => t | [] => mktp 0 0 0 0 0 0 0 0 None [] end | _ => mktp 0 0 0 0 0 0 0 0 None [] end.
Definition ex_streams : list (Z * Z * list (Z * list Z)) := [(0x1b, 256, []); (0x0f, 257, []); (0x0f, 258, [])].
Definition ex_video1 := mkunit 0 0 0xE0 (Some 900000) None None ([0; 0; 1; 0x67] ++ repeat 9 200).
Definition ex_video2 := mkunit 0 0 0xE0 (Some 1300000) None None ([0; 0; 1; 0x41] ++ repeat 7 300).
Definition ex_audio1 := mkunit 0 0 0xC0 (Some 900000) None None ([255; 241] ++ repeat 5 30).
Definition ex_small := mkunit 0 0 0xC0 (Some 900000) None None [255; 241; 1].
Definition ex_units (pid : Z) : list (unit_t * list tp) :=
  if pid =? 256 then [(ex_video1, ex_packets 256 0 ex_video1 true); (ex_video2, ex_packets 256 2 ex_video2 false)]
  else if pid =? 257 then [(ex_audio1, ex_packets 257 0 ex_audio1 false)] else [(ex_small, ex_packets 258 0 ex_small false)].
Fixpoint weave {A} (a b : list A) : list A := match a, b with x :: a, y :: b => x :: y :: weave a b | [], b => b | a, [] => a end.
Definition ex_stream : list tp :=
  ex_table 0 (write_pat 0 3 7 [(1, 32)]) :: ex_table 32 (write_pmt 0 3 1 256 (map (fun s => (fst (fst s), snd (fst s))) ex_streams))
  (* with a packet that carries a PCR only, a filler, and a packet of no stream *)
  :: mktp 0 0 256 1 0 0 183 0 (Some (0, 0, 9, 0)) [] :: mktp 0 0 257 1 1 0 183 0 None [] :: mktp 0 0 300 0 1 0 0 0 None (repeat 1 184)
  :: weave (ex_packets 256 0 ex_video1 true ++ ex_packets 256 2 ex_video2 false) (ex_packets 257 0 ex_audio1 false ++ ex_packets 258 0 ex_small false).
Definition carriesb (l : list tp) (u : list Z) : bool :=
  (if list_eq_dec Z.eq_dec (concat (map t_payload l)) u then true else false) && match l with [] => false | t :: l' => (t_pusi t =? 1) && forallb (fun t => t_pusi t =? 0) l' end
  && forallb (fun t => (t_tei t =? 0) && (t_pay t =? 1) && (t_aflen t <=? 183) && match t_payload t with [] => false | _ => true end) l.
Lemma carriesb_ok : forall l u, carriesb l u = true -> carries l u.
Proof.
  intros l u H. unfold carriesb in H. apply andb_prop in H as [H H3]. apply andb_prop in H as [H1 H2]. unfold carries. destruct (list_eq_dec _ _ _); [|discriminate]. split; [assumption|]. split.
  - destruct l as [|t l]; [discriminate|]. apply andb_prop in H2 as [A B]. split; [lia|]. apply Forall_forall. intros x Hx. rewrite forallb_forall in B. specialize (B x Hx). lia.
  - apply Forall_forall. intros x Hx. rewrite forallb_forall in H3. specialize (H3 x Hx). destruct (t_payload x); [rewrite andb_false_r in H3; discriminate|]. split; [lia|]. split; [lia|]. split; [lia|discriminate].
Qed.
Example ex_transport : transport ex_streams ex_units ex_stream.
Proof.
  eexists _, _, 1, _. split; [reflexivity|]. split; [vm_compute; reflexivity|]. split; [vm_compute; congruence|]. split; [|split; [|split; [|split; [|split]]]].
  - exists 8, 1, 193, 0, 0, 7. eexists. split; [lia|]. split; [unfold w16; lia|]. split; [unfold is_byte; lia|]. split; [unfold is_byte; lia|]. split; [unfold is_byte; lia|]. split; [lia|].
    cut (forall c, c = crc_spec (iso_section 0 8 1 193 0 0 (iso_program 7 (1, 32))) -> 0 <= c < 2 ^ 32 /\ w16 1 /\ pid_ok (t_pid (ex_table 32 (write_pmt 0 3 1 256 (map (fun s => (fst (fst s), snd (fst s))) ex_streams)))) /\ carries [ex_table 0 (write_pat 0 3 7 [(1, 32)])] (0 :: iso_section 0 8 1 193 0 0 (iso_program 7 (1, t_pid (ex_table 32 (write_pmt 0 3 1 256 (map (fun s => (fst (fst s), snd (fst s))) ex_streams))))) ++ be32 c)).
    { intros H. apply H. reflexivity. }
    intros c ->. split; [split; vm_compute; congruence|]. split; [unfold w16; lia|]. split; [unfold pid_ok; split; vm_compute; congruence|]. apply carriesb_ok. vm_compute. reflexivity.
  - exists 8, 1, 193, 0, 0, 0, 0, 256, [], (crc_spec (iso_section 2 8 1 193 0 0 (iso_pmt_body 0 0 256 [] ex_streams))). split; [lia|]. split; [unfold w16; lia|]. split; [unfold is_byte; lia|]. split; [unfold is_byte; lia|]. split; [unfold is_byte; lia|]. split; [lia|]. split; [lia|].
    split; [split; vm_compute; congruence|]. split; [unfold pid_ok; lia|]. split; [split; [constructor|cbn; lia]|]. split; [repeat constructor; cbn; lia|]. split; [vm_compute; reflexivity|]. apply carriesb_ok. vm_compute. reflexivity.
  - cbn. repeat constructor; cbn; lia.
  - cbn. lia.
  - change (t_pid (ex_table 32 _)) with 32. cbn. lia.
  - assert (KO : forall sid u l, u_ok u -> declares u -> u_sid u = sid -> carriesb l (u_bytes u) = true -> u_ok u /\ carries l (u_bytes u) /\ ((declares u /\ u_sid u = sid) \/ leaves_open u)) by (intros sid u l A B C D; split; [exact A|]; split; [apply carriesb_ok; exact D|]; left; split; assumption).
    intros ty pid ds [[= <- <- <-]|[[= <- <- <-]|[[= <- <- <-]|[]]]]; (split; [vm_compute; reflexivity|split]).
    + exists 0xE0. constructor; [|constructor; [|constructor]]; (apply KO; [vm_compute; intuition congruence|split; vm_compute; congruence|reflexivity|vm_compute; reflexivity]).
    + left. eexists _, []. split; [rewrite app_nil_r; reflexivity|]. split; [|discriminate]. intros _. split; [vm_compute; congruence|]. exists (firstn 14 (u_bytes ex_video1)), 0x67, (repeat 9 200). split; [vm_compute; reflexivity|]. split; [reflexivity|vm_compute; congruence].
    + exists 0xC0. constructor; [|constructor]; (apply KO; [vm_compute; intuition congruence|split; vm_compute; congruence|reflexivity|vm_compute; reflexivity]).
    + left. eexists _, []. split; [rewrite app_nil_r; reflexivity|]. split; [discriminate|]. intros _. split; [vm_compute; congruence|]. exists (firstn 14 (u_bytes ex_audio1)), 241, (repeat 5 30). split; [vm_compute; reflexivity|]. split; [reflexivity|vm_compute; congruence].
    + exists 0xC0. constructor; [|constructor]; (apply KO; [vm_compute; intuition congruence|split; vm_compute; congruence|reflexivity|vm_compute; reflexivity]).
    + right. exists 30. split; [right; split; reflexivity|]. constructor; [vm_compute; reflexivity|constructor].
Qed.
Example C57_nonvacuous : Forall (fun x => declares (fst x)) (ex_units 256)
  /\ map (fun e => match e with MUnit pid (DUnit b f h) => (pid, b, f, pts_of h) | _ => (0, [], None, None) end) (dm_run 0 dm0 ex_stream)
     = [(257, u_body ex_audio1, Some 0, Some 900000); (256, u_body ex_video1, Some 1, Some 900000); (256, u_body ex_video2, Some 0, Some 1300000)].
Proof. split; [|vm_compute; reflexivity]. constructor; [|constructor; [|constructor]]; split; vm_compute; congruence. Qed.
(** a key frame of 70000 bytes, then a small frame which is not one, then another of 70000 *)
Definition ex_big (u : unit_t) (rai : Z) : list tp := [mktp 0 1 256 1 1 0 7 rai None (u_bytes u)].
Definition ex_key := mkunit 0 0 0xE0 (Some 900000) None None ([0; 0; 1; 0x67] ++ repeat 9 (Z.to_nat 70000)).
Definition ex_units2 (pid : Z) : list (unit_t * list tp) := [(ex_key, ex_big ex_key 1); (ex_video2, ex_big ex_video2 0); (ex_key, ex_big ex_key 1)].
Definition ex_stream2 : list tp := ex_table 0 (write_pat 0 3 7 [(1, 32)]) :: ex_table 32 (write_pmt 0 3 1 256 [(0x1b, 256)]) :: ex_big ex_key 1 ++ ex_big ex_video2 0 ++ ex_big ex_key 1.
Lemma ex_key_len : zlen (u_body ex_key) = 70004.
Proof. unfold ex_key. cbn [u_body app]. rewrite !zlen_cons. unfold zlen. rewrite repeat_length. lia. Qed.
Lemma ex_key_ok : u_ok ex_key /\ leaves_open ex_key /\ carries (ex_big ex_key 1) (u_bytes ex_key).
Proof.
  assert (L : 65535 <= zlen (u_body ex_key)) by (rewrite ex_key_len; lia).
  split; [vm_compute; intuition congruence|]. split; [right; exact L|]. split; [cbn [ex_big map t_payload concat]; apply app_nil_r|]. split; [split; [reflexivity|constructor]|].
  constructor; [|constructor]. split; [reflexivity|]. split; [reflexivity|]. split; [cbn; lia|]. cbn [t_payload]. unfold u_bytes. discriminate.
Qed.
Example ex_transport2 : transport [(0x1b, 256, [])] ex_units2 ex_stream2.
Proof.
  eexists _, _, 1, _. split; [reflexivity|]. split; [vm_compute; reflexivity|]. split; [vm_compute; congruence|]. split; [|split; [|split; [|split; [|split]]]].
  - exists 8, 1, 193, 0, 0, 7, (crc_spec (iso_section 0 8 1 193 0 0 (iso_program 7 (1, 32)))). change (t_pid (ex_table 32 _)) with 32. split; [lia|]. split; [unfold w16; lia|]. split; [unfold is_byte; lia|]. split; [unfold is_byte; lia|]. split; [unfold is_byte; lia|]. split; [lia|].
    split; [split; vm_compute; congruence|]. split; [unfold w16; lia|]. split; [unfold pid_ok; lia|]. apply carriesb_ok. vm_compute. reflexivity.
  - exists 8, 1, 193, 0, 0, 0, 0, 256, [], (crc_spec (iso_section 2 8 1 193 0 0 (iso_pmt_body 0 0 256 [] [(0x1b, 256, [])]))). split; [lia|]. split; [unfold w16; lia|]. split; [unfold is_byte; lia|]. split; [unfold is_byte; lia|]. split; [unfold is_byte; lia|]. split; [lia|]. split; [lia|].
    split; [split; vm_compute; congruence|]. split; [unfold pid_ok; lia|]. split; [split; [constructor|cbn; lia]|]. split; [repeat constructor; cbn; lia|]. split; [vm_compute; reflexivity|]. apply carriesb_ok. vm_compute. reflexivity.
  - cbn. repeat constructor; cbn; lia.
  - cbn. lia.
  - change (t_pid (ex_table 32 _)) with 32. cbn. lia.
  - destruct ex_key_ok as (K1 & K2 & K3). intros ty pid ds [[= <- <- <-]|[]]. split; [|split].
    + reflexivity.
    + exists 0xE0. constructor; [|constructor; [|constructor; [|constructor]]]; cbn [fst snd].
      * split; [exact K1|]. split; [exact K3|]. right. exact K2.
      * split; [vm_compute; intuition congruence|]. split; [apply carriesb_ok; vm_compute; reflexivity|]. left. split; [split; vm_compute; congruence|reflexivity].
      * split; [exact K1|]. split; [exact K3|]. right. exact K2.
    + left. eexists _, []. split; [rewrite app_nil_r; reflexivity|]. split; [|discriminate]. intros _. cbn [map concat ex_big t_payload]. rewrite app_nil_r. split.
      * unfold u_bytes. rewrite zlen_app, ex_key_len. match goal with |- _ <= zlen ?x + _ => pose proof (zlen_nonneg x) end. lia.
      * unfold u_bytes. eexists _, 0x67, (repeat 9 (Z.to_nat 70000)). split; [reflexivity|]. split; [reflexivity|]. unfold zlen. rewrite repeat_length. lia.
Qed.
Example C57_open_nonvacuous : exists us, ex_units2 256 = us ++ [(ex_key, ex_big ex_key 1)] /\ leaves_open ex_key /\ declares ex_video2 /\ first_indicator (ex_big ex_key 1) = Some 1 /\ first_indicator (ex_big ex_video2 0) = Some 0.
Proof. exists [(ex_key, ex_big ex_key 1); (ex_video2, ex_big ex_video2 0)]. split; [reflexivity|]. split; [apply ex_key_ok|]. split; [split; vm_compute; congruence|]. split; reflexivity. Qed.
Example C57_written_nonvacuous : Forall unit_fits [(ex_video1, true, None); (ex_video2, false, None)] /\ recognisable 0x1b (u_bytes ex_video1)
  /\ exists b, write_units 256 0 [(ex_video1, true, None); (ex_video2, false, None)] = Some b /\ concat (map snd (ex_units 256)) = get_packets (length b) b.
Proof.
  split; [|split; [split; [|discriminate]; intros _; split; [vm_compute; congruence|exists (firstn 14 (u_bytes ex_video1)), 0x67, (repeat 9 200); split; [vm_compute; reflexivity|split; [reflexivity|vm_compute; congruence]]]|]].
  - assert (B : forall l, forallb (fun x => (0 <=? x) && (x <? 256)) l = true -> bytes l) by (intros l H; apply Forall_forall; intros x Hx; rewrite forallb_forall in H; specialize (H x Hx); unfold is_byte; lia).
    constructor; [|constructor; [|constructor]]; (split; [vm_compute; intuition congruence|]; split; [apply B; vm_compute; reflexivity|]; split; [exact I|vm_compute; congruence]).
  - eexists. split; vm_compute; reflexivity.
Qed.
