(** Proofs about Level_model. *)
From Verif Require Import Util SampleTab_model SampleTab_proofs Box_model Box_proofs Frag_model Frag_proofs Frag_proofs2 Level_model TimeTab_model.
Local Open Scope Z_scope.

Lemma ready_cases : forall s, ready s -> exists c d r, l_samples s = (c, d) :: r /\ 0 <= d <= c /\ c < 2 ^ 62 /\ start_time s = c /\ decoding_start s = d /\ first_comp s = c /\ first_dec s = d /\ l_offset s = 0 /\ 0 <= l_ctts s < 2 ^ 62.
Proof.
  intros s (O & K & H). unfold start_time, decoding_start, first_comp, first_dec. destruct (l_samples s) as [|(c & d) r]; [contradiction|].
  exists c, d, r. cbn [hd fst snd]. repeat split; try reflexivity; try exact O; lia.
Qed.
Lemma earliest_some : forall l best min, (forall s, best = Some s -> ready s /\ start_time s = min) -> Forall ready l ->
  match earliest best min l with
  | None => best = None /\ forall x, In x l -> min <= start_time x
  | Some s => (In s l \/ best = Some s) /\ start_time s <= min /\ forall x, In x l -> start_time s <= start_time x
  end.
Proof.
  induction l as [|s l IH]; intros best min B R.
  - cbn [earliest]. destruct best as [s|]; [|split; [reflexivity|intros x []]]. split; [right; reflexivity|]. destruct (B s eq_refl) as (_ & E). split; [lia|intros x []].
  - cbn [earliest]. pose proof (Forall_inv R) as Rs. apply Forall_inv_tail in R. destruct (start_time s <? min) eqn:L.
    + specialize (IH (Some s) (start_time s)). destruct (earliest (Some s) (start_time s) l) as [y|].
      * destruct IH as (I & Y & Z); [intros z X; injection X as <-; split; [exact Rs|reflexivity]|exact R|]. split; [|split; [lia|]].
        -- left. destruct I as [I|I]; [right; exact I|injection I as <-; left; reflexivity].
        -- intros x [<-|I']; [exact Y|apply Z; exact I'].
      * destruct IH as (I & _); [intros z X; injection X as <-; split; [exact Rs|reflexivity]|exact R|discriminate I].
    + specialize (IH best min B R). destruct (earliest best min l) as [y|].
      * destruct IH as (I & Y & Z). split; [destruct I as [I|I]; [left; right; exact I|right; exact I]|]. split; [exact Y|]. intros x [<-|I']; [lia|apply Z; exact I'].
      * destruct IH as (I & Z). split; [exact I|]. intros x [<-|I']; [lia|apply Z; exact I'].
Qed.
Lemma max_ctts_from : forall l m, (forall s, In s l -> l_ctts s <= fold_left (fun m s => if m <? l_ctts s then l_ctts s else m) l m)
  /\ m <= fold_left (fun m s => if m <? l_ctts s then l_ctts s else m) l m
  /\ (fold_left (fun m s => if m <? l_ctts s then l_ctts s else m) l m = m \/ exists s, In s l /\ l_ctts s = fold_left (fun m s => if m <? l_ctts s then l_ctts s else m) l m).
Proof.
  induction l as [|s l IH]; intros m; cbn [fold_left]; [split; [intros s []|]; split; [lia|left; reflexivity]|].
  destruct (IH (if m <? l_ctts s then l_ctts s else m)) as (A & B & C). split; [|split].
  - intros x [<-|I]; [|apply A; exact I]. etransitivity; [|exact B]. destruct (Z.ltb_spec m (l_ctts s)); lia.
  - etransitivity; [|exact B]. destruct (Z.ltb_spec m (l_ctts s)); lia.
  - destruct C as [C|(x & I & E)]; [|right; exists x; split; [right; exact I|exact E]]. destruct (m <? l_ctts s) eqn:D; [right; exists s; split; [left; reflexivity|symmetry; exact C]|left; exact C].
Qed.
Lemma max_ctts_ok : forall l, l <> [] -> Forall ready l -> greatest_ctts (max_ctts l) l.
Proof.
  intros l N R. unfold max_ctts. destruct (max_ctts_from l 0) as (A & B & C). split; [|exact A].
  destruct C as [C|C]; [|exact C]. destruct l as [|s l]; [contradiction|]. exists s. split; [left; reflexivity|].
  specialize (A s (or_introl eq_refl)). rewrite C in A |- *. apply Forall_inv in R. destruct R as (_ & K & _). lia.
Qed.
Lemma level_some : forall us l, l <> [] -> Forall ready l -> exists s0, starts_first s0 l /\ greatest_ctts (max_ctts l) l
  /\ level_start_time us l = Some (map (level_one us (first_dec s0) (max_ctts l)) l).
Proof.
  intros us l N R. unfold level_start_time. pose proof (earliest_some l None U64MAX ltac:(intros s X; discriminate X) R) as E.
  assert (G := max_ctts_ok l N R). rewrite Forall_forall in R.
  destruct (earliest None U64MAX l) as [s0|].
  - destruct E as ([I|I] & _ & M); [|discriminate I]. exists s0. split; [|split; [exact G|]].
    + split; [exact I|]. intros x Ix. destruct (ready_cases s0 (R s0 I)) as (c & d & r & _ & _ & _ & E1 & _ & E2 & _). destruct (ready_cases x (R x Ix)) as (c' & d' & r' & _ & _ & _ & E1' & _ & E2' & _). specialize (M x Ix). lia.
    + destruct (ready_cases s0 (R s0 I)) as (c & d & r & _ & _ & _ & _ & E1 & _ & E2 & _). rewrite E1, E2. reflexivity.
  - destruct E as (_ & E). destruct l as [|s l]; [contradiction|]. specialize (E s (or_introl eq_refl)). destruct (ready_cases s (R s (or_introl eq_refl))) as (c & d & r & _ & _ & C & E1 & _). unfold U64MAX in E. lia.
Qed.
Lemma level_presented : forall us l s0 s c, starts_first s0 l -> Forall ready l -> In s l ->
  presented (level_one us (first_dec s0) (max_ctts l) s) c = c - Z.min (first_dec s) (first_dec s0) + max_ctts l
  /\ l_samples (level_one us (first_dec s0) (max_ctts l) s) = l_samples s.
Proof.
  intros us l s0 s c (I0 & F) R I.
  assert (G := max_ctts_ok l ltac:(intros ->; destruct I) R). destruct G as ((sm & Im & Em) & G). specialize (G s I).
  rewrite Forall_forall in R.
  destruct (ready_cases sm (R sm Im)) as (_ & _ & _ & _ & _ & _ & _ & _ & _ & _ & _ & Km). rewrite Em in Km. clear sm Im Em.
  set (M := max_ctts l) in *. specialize (F s I).
  destruct (ready_cases s (R s I)) as (cs & ds & r & Es & D & C & E1 & E2 & E3 & E4 & E5 & K).
  destruct (ready_cases s0 (R s0 I0)) as (c0 & d0 & r0 & _ & D0 & C0 & E1' & E2' & E3' & E4' & _). rewrite E4, E4'. rewrite E3, E3' in F.
  unfold level_one. rewrite E1, E2. unfold u64. rewrite !(Z.mod_small (cs - _)) by lia.
  assert (P : forall m o, presented (mkL (l_samples s) m o) c = c - ds + m + o) by (intros; unfold presented; cbn [l_samples l_ctts l_offset]; rewrite Es; reflexivity).
  assert (P' : presented s c = c - ds + l_ctts s) by (unfold presented; rewrite Es, E5; cbn [hd snd]; lia).
  destruct (Z.ltb_spec (cs - ds) (cs - d0)), (Z.ltb_spec (l_ctts s) M);
  repeat match goal with |- context [?x mod 2 ^ 64] => rewrite (Z.mod_small x) by lia end;
  match goal with |- context [?x =? 0] => destruct (Z.eqb_spec x 0) end; try lia;
  try (rewrite P'; split; [lia|reflexivity]);
  (destruct us; (rewrite P; split; [|reflexivity]); repeat match goal with |- context [?x mod 2 ^ 64] => rewrite (Z.mod_small x) by lia end; lia).
Qed.
(** the exact presentation times *)
Lemma level_exact : forall us l, l <> [] -> Forall ready l -> exists l', level_start_time us l = Some l' /\ length l' = length l
  /\ exists s0 m, starts_first s0 l /\ greatest_ctts m l
  /\ forall i s s', nth_error l i = Some s -> nth_error l' i = Some s' -> l_samples s' = l_samples s
     /\ forall c, presented s' c = c - Z.min (first_dec s) (first_dec s0) + m.
Proof.
  intros us l N R. destruct (level_some us l N R) as (s0 & S0 & G & E). eexists. split; [exact E|]. split; [apply map_length|].
  exists s0, (max_ctts l). split; [exact S0|]. split; [exact G|]. intros i s s' H H'. rewrite nth_error_map, H in H'. cbn [option_map] in H'. injection H' as <-.
  assert (I : In s l) by (eapply nth_error_In; exact H). split; [exact (proj2 (level_presented us l s0 s 0 S0 R I))|]. intros c. apply (level_presented us l s0 s c S0 R I).
Qed.

(** * the edit list *)
Lemma entry_reads : forall d t, Reads (rbind (rbind (rnum 4) (fun d => rbind (rnum 4) (fun t => rret (d, sint t)))) (fun e => rbind (rnum 4) (fun _ => rret e))) (elst_entry (d, t)) (u32 d, sint (u32 t)).
Proof.
  intros d t. unfold elst_entry. cbn [fst snd].
  eapply reads_eq; [|rewrite app_assoc; reflexivity].
  apply (reads_bind _ _ _ _ (u32 d, sint (u32 t))).
  - rb (u32 d). { apply reads_num32. unfold u32. apply Z.mod_pos_bound. lia. }
    rewrite <- (app_nil_r (be32 (u32 t))). rb (u32 t). { apply reads_num32. unfold u32. apply Z.mod_pos_bound. lia. } apply reads_ret.
  - rewrite <- (app_nil_r (be 2 1 ++ be 2 0)). eapply reads_bind; [apply reads_any; rewrite app_length, !be_length; reflexivity|apply reads_ret].
Qed.
Lemma elst_reads : forall l, Z.of_nat (length l) < 2 ^ 32 -> Reads get_elst (elst_body l) (map (fun e => (u32 (fst e), sint (u32 (snd e)))) l).
Proof.
  intros l L. unfold get_elst, elst_body, full. rewrite <- !app_assoc.
  rb 0. { apply reads_num. split; [discriminate|reflexivity]. }
  rb 0. { apply reads_num. split; [discriminate|reflexivity]. }
  rb (Z.of_nat (length l)). { apply reads_num32. lia. }
  rewrite Nat2Z.id. change (0 =? 1) with false.
  replace (length l) with (length (map (fun e => (u32 (fst e), sint (u32 (snd e)))) l)) by apply map_length.
  apply reads_rep. clear L. induction l as [|(d & t) l IH]; [constructor|]. cbn [map]. constructor; [apply entry_reads|exact IH].
Qed.
Lemma elst_back : forall scale s body pre post, write_edts scale s = Some body -> parse_elst (pre ++ body ++ post) (zlen pre) = Some (u32 (scale (l_offset s))).
Proof.
  intros scale s body pre post H. unfold write_edts in H. destruct (l_offset s =? 0); [discriminate H|]. injection H as <-.
  unfold parse_elst. rewrite (elst_reads [(scale (l_offset s), -1); (scale (stream_duration s), 0)] eq_refl pre post). cbn [map fst snd]. reflexivity.
Qed.
Lemma offset_back : forall ts h scale unscale s body pre post, conversion ts h scale unscale -> 0 <= l_offset s < h -> ts * l_offset s < 10000000 * 2 ^ 32 -> write_edts scale s = Some body ->
  exists ticks, parse_elst (pre ++ body ++ post) (zlen pre) = Some ticks
    /\ l_offset s - (10000000 / ts + 2) <= stream_offset_hns ts ticks <= l_offset s.
Proof.
  intros ts h scale unscale s body pre post (T & C & _) H B W. destruct (C (l_offset s) H) as (C1 & C2 & C3).
  rewrite (elst_back _ _ _ pre post W). eexists. split; [reflexivity|].
  assert (Sm : scale (l_offset s) < 2 ^ 32) by nia.
  unfold u32. rewrite Z.mod_small by lia. unfold stream_offset_hns, u64. rewrite (Z.mod_small (10000000 * scale (l_offset s))) by lia.
  remember (scale (l_offset s)) as k eqn:Ek. remember (l_offset s) as o eqn:Eo.
  pose proof (Z.div_mod (10000000 * k) ts ltac:(lia)) as D1. pose proof (Z.mod_pos_bound (10000000 * k) ts T) as D2.
  pose proof (Z.div_mod 10000000 ts ltac:(lia)) as D3. pose proof (Z.mod_pos_bound 10000000 ts T) as D4.
  set (q := 10000000 * k / ts) in *. set (w := 10000000 / ts) in *. split; nia.
Qed.
(** The media time of the last sample is past the second edit. *)
Lemma last_outside : forall s, l_samples s <> [] -> 0 <= l_ctts s -> 0 <= first_dec s <= first_comp s -> first_comp s <= fst (last (l_samples s) (0, 0)) < 2 ^ 64 ->
  stream_duration s <= fst (last (l_samples s) (0, 0)) - first_dec s + l_ctts s.
Proof.
  intros s N K D L. unfold stream_duration. assert (E : start_time s = first_comp s) by (unfold start_time, first_comp; destruct (l_samples s) as [|(c & d) r]; [contradiction|reflexivity]).
  rewrite E. unfold u64. rewrite Z.mod_small by lia. lia.
Qed.
(** a stream without samples *)
Lemma empty_level : forall us start max, 0 <= start < U64MAX -> 0 <= max < 2 ^ 62 -> level_one us start max (mkL [] max 0) = if us then mkL [] max (U64MAX - start) else mkL [] (u64 (U64MAX - start + max)) 0.
Proof.
  intros us start max H M. unfold level_one, start_time, decoding_start. cbn [l_samples l_ctts l_offset]. unfold U64MAX in *. rewrite Z.sub_diag. change (u64 0) with 0.
  unfold u64. rewrite !(Z.mod_small (2 ^ 64 - 1 - start)) by lia. destruct (Z.ltb_spec 0 (2 ^ 64 - 1 - start)); [|lia]. rewrite Z.ltb_irrefl, Z.sub_0_r. rewrite (Z.mod_small (2 ^ 64 - 1 - start)) by lia.
  destruct (Z.eqb_spec (2 ^ 64 - 1 - start) 0); [lia|]. destruct us; reflexivity.
Qed.
