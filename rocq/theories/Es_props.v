(** C55, C56: elementary streams through a transport stream *)
From Coq Require Import ZifyNat.
From Verif Require Import Util Bits_spec SampleTab_model SampleTab_proofs TsTime_model Ts_model Ts_props Box_model Es_model Es_proofs Es_proofs2.
Local Open Scope Z_scope.

(** * C55: H.264 samples come back from the access units written for them *)
Theorem C55_video : forall sps pps us ss, is_nal sps -> is_nal pps -> nal_type sps = 7 -> nal_type pps = 8 ->
  Forall (fun s => Forall is_nal (fst s)) ((us, true) :: ss) ->
  exists bodies, Forall2 (fun s b => access_unit sps pps (snd s) (avcc (fst s)) = Some b) ((us, true) :: ss) bodies /\
    exists s, read_access_units v0 bodies = Some (s, map (fun s => avcc (picture_units (fst s))) ((us, true) :: ss)) /\ v_sps s = sps /\ v_pps s = pps.
Proof.
  intros sps pps us ss A B TA TB F. exists (map (with_delimiter sps pps) ((us, true) :: ss)). split.
  - revert F. generalize ((us, true) :: ss). intros l F. induction F; cbn [map]; constructor; [apply write_ok; assumption|assumption].
  - exists (opened sps pps). split; [apply read_all; assumption|split; reflexivity].
Qed.
Print Assumptions C55_video.
Definition ex_sps := [0x67; 0x42; 0; 0x1e; 0]. Definition ex_pps := [0x68; 0xce; 0].
Definition ex_idr := [0x65; 0; 0; 3; 1; 0]. Definition ex_p := [0x41; 0x9a; 0; 0; 2]. Definition ex_sei := [6; 5; 0x80].
Lemma ex_nal_of : forall u, u <> [] -> forallb (fun b => (0 <=? b) && (b <? 256)) u = true -> no_code u -> zlen u < 2 ^ 32 -> is_nal u.
Proof. intros u A B C D. split; [exact A|]. split; [|split; assumption]. apply Forall_forall. intros x H. rewrite forallb_forall in B. apply B in H. unfold is_byte. lia. Qed.
Ltac no_code_tac := let a := fresh in let b := fresh in let E := fresh in intros a b E; repeat (destruct a as [|? a]; [discriminate E|]; try discriminate E; cbn [app] in E; injection E as _ E); destruct a; discriminate E.
Example C55_nonvacuous : is_nal ex_sps /\ is_nal ex_pps /\ is_nal ex_idr /\ is_nal ex_p /\ is_nal ex_sei /\ nal_type ex_sps = 7 /\ nal_type ex_pps = 8 /\
  exists a b, access_unit ex_sps ex_pps true (avcc [ex_sei; ex_idr]) = Some a /\ access_unit ex_sps ex_pps false (avcc [[9; 0x30]; ex_p]) = Some b /\
    read_access_units v0 [a; b] = Some (mkV ex_sps ex_pps true [], [avcc [ex_sei; ex_idr]; avcc [ex_p]]).
Proof.
  split; [apply ex_nal_of; [discriminate|reflexivity|no_code_tac|reflexivity]|]. split; [apply ex_nal_of; [discriminate|reflexivity|no_code_tac|reflexivity]|].
  split; [apply ex_nal_of; [discriminate|reflexivity|no_code_tac|reflexivity]|]. split; [apply ex_nal_of; [discriminate|reflexivity|no_code_tac|reflexivity]|].
  split; [apply ex_nal_of; [discriminate|reflexivity|no_code_tac|reflexivity]|]. split; [reflexivity|]. split; [reflexivity|].
  eexists _, _. split; [vm_compute; reflexivity|]. split; vm_compute; reflexivity.
Qed.
(** the same bytes when the samples hold neither parameter sets nor delimiters *)
Theorem C55_same : forall sps pps us ss, is_nal sps -> is_nal pps -> nal_type sps = 7 -> nal_type pps = 8 ->
  Forall (fun s => Forall (fun u => is_nal u /\ ~ In (nal_type u) [7; 8; 9]) (fst s)) ((us, true) :: ss) ->
  exists bodies, Forall2 (fun s b => access_unit sps pps (snd s) (avcc (fst s)) = Some b) ((us, true) :: ss) bodies /\
    exists s, read_access_units v0 bodies = Some (s, map (fun s => avcc (fst s)) ((us, true) :: ss)).
Proof.
  intros sps pps us ss A B TA TB F. destruct (C55_video sps pps us ss A B TA TB) as (bodies & W & s & R & _).
  - eapply Forall_impl; [|exact F]. intros s H. eapply Forall_impl; [|exact H]. intros u [N _]. exact N.
  - exists bodies. split; [exact W|]. exists s. rewrite R. do 2 f_equal. apply map_ext_in. intros x Hx. rewrite Forall_forall in F. specialize (F x Hx). f_equal.
    clear - F. induction F as [|u l [_ N] F IH]; [reflexivity|]. rewrite picture_cons, IH. cbn [In] in N. destruct (Z.eqb_spec (nal_type u) 7); [exfalso; lia|]. destruct (Z.eqb_spec (nal_type u) 8); [exfalso; lia|]. destruct (Z.eqb_spec (nal_type u) 9); [exfalso; lia|]. reflexivity.
Qed.
Print Assumptions C55_same.
Example C55_same_nonvacuous : Forall (fun s => Forall (fun u => is_nal u /\ ~ In (nal_type u) [7; 8; 9]) (fst s)) [([ex_sei; ex_idr], true); ([ex_p], false)].
Proof.
  assert (H : forall u, is_nal u -> nal_type u = 6 \/ nal_type u = 5 \/ nal_type u = 1 -> is_nal u /\ ~ In (nal_type u) [7; 8; 9]) by (intros u N T; split; [exact N|]; cbn [In]; lia).
  destruct C55_nonvacuous as (_ & _ & I & P & S & _). constructor; [constructor; [apply H; [exact S|auto]|constructor; [apply H; [exact I|auto]|constructor]]|].
  constructor; [constructor; [apply H; [exact P|auto]|constructor]|constructor].
Qed.
(** units written by others, after start codes of 3 or 4 bytes, are found with their bytes *)
Theorem C55_start_codes : forall us, Forall (fun x => is_nal (snd x) /\ last (snd x) 0 <> 0) us ->
  units_of (start_coded us) = Some (map (fun x => (nal_type (snd x), snd x)) us).
Proof.
  intros us F. apply split_start; [|apply start_length]. eapply Forall_impl; [|exact F]. intros x [(A & _ & B & _) L]. split; [exact A|split; assumption].
Qed.
Print Assumptions C55_start_codes.
Example C55_start_codes_nonvacuous : start_coded [(true, [9; 0xf0]); (false, [6; 5; 0x80]); (false, [0x65; 0; 0; 3; 1])] = [0;0;0;1;9;0xf0;0;0;1;6;5;0x80;0;0;1;0x65;0;0;3;1]
  /\ units_of [0;0;0;1;9;0xf0;0;0;1;6;5;0x80;0;0;1;0x65;0;0;3;1] = Some [(9, [9; 0xf0]); (6, [6; 5; 0x80]); (5, [0x65; 0; 0; 3; 1])].
Proof. split; vm_compute; reflexivity. Qed.
(** a payload without start code, or with one at its end, stops the reader with EndOfData *)
Theorem C55_payload_refuted : (forall l, l <> [] -> no_code l -> units_of l = None) /\ (forall us, Forall is_nal us -> units_of (annex_b us ++ [0; 0; 0; 1]) = None).
Proof. split; [exact units_no_code|]. intros us F. apply split_annex_end. apply is_nal_ok. exact F. Qed.
Print Assumptions C55_payload_refuted.
Example C55_payload_nonvacuous : units_of [1; 2; 3] = None /\ units_of [0; 0; 0; 1; 9; 0xf0; 0; 0; 0; 1] = None. Proof. split; reflexivity. Qed.
(** a first access unit without picture parameter set: a sample is added to no stream *)
Theorem C55_first_refuted : forall us, Forall is_nal us -> Forall (fun u => nal_type u <> 8) us -> read_access_unit v0 (annex_b us) = NoStream.
Proof.
  intros us F N. unfold read_access_unit. rewrite units_annex by (apply is_nal_ok; exact F). cbv zeta. rewrite fold_step, step_no_pps by (try reflexivity; exact N). reflexivity.
Qed.
Print Assumptions C55_first_refuted.
Example C55_first_nonvacuous : read_access_unit v0 (annex_b [ex_p]) = NoStream. Proof. reflexivity. Qed.
(** a length in the sample beyond its end: bytes outside the sample are read *)
Theorem C55_length_refuted : forall sps pps k us n u, Forall is_nal us -> zlen u < n < 2 ^ 32 -> access_unit sps pps k (avcc us ++ be 4 n ++ u) = None.
Proof. intros sps pps k us n u F N. unfold access_unit. rewrite put_short; [reflexivity|apply is_nal_ok; exact F|exact N]. Qed.
Print Assumptions C55_length_refuted.
Example C55_length_nonvacuous : access_unit ex_sps ex_pps true (avcc [ex_idr] ++ be 4 9 ++ ex_p) = None. Proof. reflexivity. Qed.
(** writer, packets and reader together *)
Theorem C55_end_to_end : forall pid sid sps pps us ss xs bs cc, 0 <= pid < 8192 -> 0 <= cc < 256 ->
  is_nal sps -> is_nal pps -> nal_type sps = 7 -> nal_type pps = 8 -> Forall (fun s => Forall is_nal (fst s)) ((us, true) :: ss) ->
  Forall unit_fits (xs ++ bs) -> Forall (fun x => leaves_open (fst (fst x))) xs -> Forall (fun x => declares (fst (fst x)) /\ u_sid (fst (fst x)) = sid) bs ->
  Forall2 (fun s x => access_unit sps pps (snd s) (avcc (fst s)) = Some (u_body (fst (fst x)))) ((us, true) :: ss) (xs ++ bs) ->
  exists b bodies s, write_units pid cc (xs ++ bs) = Some b /\ (forall fuel, (length b <= fuel)%nat -> reassemble (get_packets fuel b) = map Received bodies) /\
    read_access_units v0 bodies = Some (s, map (fun s => avcc (picture_units (fst s))) ((us, true) :: ss)).
Proof.
  intros pid sid sps pps us ss xs bs cc P C A B TA TB F FI OX DB W. destruct (C24_write_read pid sid xs bs cc P FI OX DB C) as (b & WU & R).
  destruct (C55_video sps pps us ss A B TA TB F) as (bodies & W' & s & RD & _). exists b, bodies, s. split; [exact WU|]. split; [|exact RD].
  assert (E : bodies = map (fun x => u_body (fst (fst x))) (xs ++ bs)).
  { clear - W W'. revert W W'. generalize ((us, true) :: ss). generalize (xs ++ bs). intros l m W. revert bodies. induction W as [|m0 x m l H W IH]; intros bodies W'; inversion W'; subst; [reflexivity|]. cbn [map]. f_equal; [congruence|auto]. }
  intros fuel Hf. rewrite (R fuel Hf), E, map_map. reflexivity.
Qed.
Print Assumptions C55_end_to_end.
Definition ex_body := match access_unit ex_sps ex_pps true (avcc [ex_idr]) with Some b => b | None => [] end.
Definition ex_vunit := (mkunit 0 0 0xE0 (Some 900000) (Some 900000) None ex_body, true, Some 900000).
Example C55_end_to_end_nonvacuous : access_unit ex_sps ex_pps true (avcc [ex_idr]) = Some ex_body /\ exists b, write_units 256 15 [ex_vunit] = Some b /\ reassemble (get_packets 400 b) = [Received ex_body] /\ read_access_units v0 [ex_body] = Some (mkV ex_sps ex_pps true [], [avcc [ex_idr]]).
Proof. split; [vm_compute; reflexivity|]. eexists. split; [vm_compute; reflexivity|]. split; vm_compute; reflexivity. Qed.

(** * C56: AAC frames in ADTS *)
Theorem C56_audio : forall object rate chan fs, 1 <= object <= 4 -> In rate rates -> In chan channels -> Forall is_frame fs ->
  exists bodies, Forall2 (fun f b => aac_unit object rate chan f = Some b) fs bodies /\
    frames_of (concat bodies) = map (fun f => (mkAdts object rate chan (zlen f) 7, f)) fs /\
    Forall2 (fun f b => frames_of b = [(mkAdts object rate chan (zlen f) 7, f)]) fs bodies.
Proof.
  intros object rate chan fs O R C F.
  assert (X : exists xs, Forall2 (fun f x => aac_unit object rate chan f = Some (adts_bytes x)) fs xs /\ Forall adts_frame_ok xs /\ map read_back xs = map (fun f => (mkAdts object rate chan (zlen f) 7, f)) fs).
  { induction F as [|f fs H F IH]; [exists []; repeat constructor|]. destruct IH as (xs & A & B & D). destruct (aac_unit_adts object rate chan f O R C H) as (x & E1 & E2 & E3). exists (x :: xs). split; [constructor; assumption|]. split; [constructor; assumption|]. cbn [map]. rewrite E3, D. reflexivity. }
  destruct X as (xs & A & B & D). exists (map adts_bytes xs). split; [clear - A; induction A; cbn [map]; constructor; assumption|]. split; [rewrite frames_adts by exact B; exact D|].
  clear - A B D. revert B D. induction A as [|f x fs xs H A IH]; intros B D; cbn [map] in *; constructor; inversion B as [|? ? BX BS]; subst; assert (D1 : read_back x = (mkAdts object rate chan (zlen f) 7, f)) by exact (f_equal (hd (read_back x)) D); assert (D2 : map read_back xs = map (fun f => (mkAdts object rate chan (zlen f) 7, f)) fs) by (exact (f_equal (@tl _) D)).
  - pose proof (frames_adts [x] (Forall_cons _ BX (Forall_nil _))) as Q. cbn [map concat] in Q. rewrite app_nil_r in Q. rewrite Q. f_equal. exact D1.
  - apply IH; assumption.
Qed.
Print Assumptions C56_audio.
Example C56_nonvacuous : is_frame [0xff; 0xf1; 0x21; 0] /\ exists a b, aac_unit 2 44100 2 [0xff; 0xf1; 0x21; 0] = Some a /\ aac_unit 2 44100 2 [1; 2] = Some b /\ a = [255; 241; 80; 128; 1; 127; 252; 0xff; 0xf1; 0x21; 0] /\
  frames_of (a ++ b) = [(mkAdts 2 44100 2 4 7, [0xff; 0xf1; 0x21; 0]); (mkAdts 2 44100 2 2 7, [1; 2])].
Proof.
  split; [split; [apply Forall_forall; intros x [<-|[<-|[<-|[<-|[]]]]]; unfold is_byte; lia|vm_compute; split; congruence]|]. eexists _, _. split; [vm_compute; reflexivity|]. split; [vm_compute; reflexivity|]. split; vm_compute; reflexivity.
Qed.
(** frames by others, with and without checksum *)
Theorem C56_read : forall xs, Forall adts_frame_ok xs ->
  map snd (frames_of (concat (map adts_bytes xs))) = map af_frame xs /\
  map (fun a => (a_object (fst a), a_rate (fst a), a_chan (fst a))) (frames_of (concat (map adts_bytes xs))) = map (fun x => (af_object x, nth (Z.to_nat (af_ri x)) rates 0, nth (Z.to_nat (af_ci x)) channels 0)) xs.
Proof. intros xs F. rewrite frames_adts by exact F. rewrite !map_map. split; reflexivity. Qed.
Print Assumptions C56_read.
Definition ex_adts := mkFrame 1 2 3 0 2 1 0 0 0 100 [0xaa; 0xbb] [7]. 
Example C56_read_nonvacuous : adts_frame_ok ex_adts /\ adts_bytes ex_adts = [255; 248; 76; 160; 1; 65; 144; 170; 187; 7] /\ frames_of (adts_bytes ex_adts) = [(mkAdts 2 48000 2 1 9, [7])].
Proof. split; [unfold adts_frame_ok; cbn; unfold zlen; cbn; lia|]. split; vm_compute; reflexivity. Qed.
(** other object types come back as another one *)
Theorem C56_object_refuted : forall object rate chan f u, 5 <= object < 2 ^ 32 -> is_frame f -> aac_unit object rate chan f = Some u ->
  exists a, frames_of u = [(a, f)] /\ a_object a <> object /\ a_object a = (object - 1) mod 4 + 1.
Proof.
  intros object rate chan f u O [_ F] H. rewrite (frames_one _ _ _ _ _ H) by lia. cbv zeta. rewrite (Z.mod_small (zlen f + 7)) by lia. replace (zlen f + 7 - 7) with (zlen f) by lia. rewrite (u32_id (zlen f)) by lia.
  destruct (Z.ltb_spec (zlen f) 2); [lia|]. destruct (Z.ltb_spec (zlen f) (zlen f)); [lia|]. destruct (Z.eqb_spec (zlen f) 0); [lia|]. cbn [orb]. rewrite u32_id by lia. unfold zlen at 2 3. rewrite Nat2Z.id, firstn_all, skipn_all.
  eexists. split; [destruct (length u - 1)%nat; reflexivity|]. cbn [a_object]. split; [|reflexivity]. pose proof (Z.mod_pos_bound (object - 1) 4 ltac:(lia)). lia.
Qed.
Print Assumptions C56_object_refuted.
Example C56_object_nonvacuous : exists u, aac_unit 5 24000 2 [1; 2; 3] = Some u /\ frames_of u = [(mkAdts 1 24000 2 3 7, [1; 2; 3])].
Proof. eexists. split; [vm_compute; reflexivity|vm_compute; reflexivity]. Qed.
(** a frame of 8185 bytes or more never comes back, nor does one of less than two bytes *)
Theorem C56_long_refuted : forall object rate chan f u, 8185 <= zlen f < 2 ^ 32 - 7 -> aac_unit object rate chan f = Some u -> forall a g r, frames_of u = (a, g) :: r -> zlen g < zlen f.
Proof.
  intros object rate chan f u F H a g r E. rewrite (frames_one _ _ _ _ _ H) in E by lia. cbv zeta in E. remember (u32 ((zlen f + 7) mod 8192 - 7)) as b eqn:Hb.
  destruct ((zlen f <? 2) || (zlen f <? b)) eqn:Q; [discriminate E|]. apply orb_false_iff in Q as [Q1 Q2]. apply Z.ltb_ge in Q1, Q2. destruct (Z.eqb_spec b 0); [discriminate E|]. injection E as <- <- _.
  pose proof (Z.mod_pos_bound (zlen f + 7) 8192 ltac:(lia)) as M. assert (B : b < 8185).
  { destruct (Z.ltb_spec ((zlen f + 7) mod 8192) 7) as [L|L]; [|rewrite u32_id in Hb by lia; lia]. unfold u32 in Hb. rewrite <- (Z.mod_add _ 1) in Hb by lia. rewrite Z.mod_small in Hb by lia. lia. }
  unfold zlen in *. rewrite firstn_length. lia.
Qed.
Print Assumptions C56_long_refuted.
Theorem C56_short_refuted : forall object rate chan f u, zlen f < 2 -> aac_unit object rate chan f = Some u -> frames_of u = [].
Proof. intros object rate chan f u F H. rewrite (frames_one _ _ _ _ _ H) by lia. cbv zeta. destruct (Z.ltb_spec (zlen f) 2); [reflexivity|lia]. Qed.
Print Assumptions C56_short_refuted.
Example C56_short_nonvacuous : (exists u, aac_unit 2 44100 2 [7] = Some u /\ frames_of u = []) /\ exists u, aac_unit 2 44100 2 (repeat 1 9000) = Some u /\ map (fun x => zlen (snd x)) (frames_of u) = [808].
Proof. split; eexists; (split; [vm_compute; reflexivity|vm_compute; reflexivity]). Qed.
(** the times of frames after the first of a packet: exact for rates that divide 10000000 only *)
Theorem C56_time : forall pts rate i, In rate rates -> 0 <= pts < 2 ^ 62 -> (Z.of_nat i < 2 ^ 32) ->
  exists t d, aac_time pts rate i = Some (t, d) /\ (t - pts) * rate <= Z.of_nat i * 1024 * 10000000 < (t - pts) * rate + (Z.of_nat i * 1024 + 1) * rate /\
  (In rate [16000; 8000] -> (t - pts) * rate = Z.of_nat i * 1024 * 10000000) /\ ((1 <= i)%nat -> ~ In rate [16000; 8000] -> (t - pts) * rate < Z.of_nat i * 1024 * 10000000).
Proof.
  intros pts rate i R P I. 
  assert (D : exists d, u64 (10000000 / rate * 1024) = 1024 * d /\ rate <> 0 /\ d = 10000000 / rate /\ 0 < d <= 1400 /\ d * rate <= 10000000 < (d + 1) * rate /\ (In rate [16000; 8000] -> d * rate = 10000000) /\ (~ In rate [16000; 8000] -> d * rate < 10000000)).
  { exists (10000000 / rate). cbn [In rates] in *. repeat (destruct R as [<-|R]; [match goal with |- context [10000000 / ?r] => change (10000000 / r) with ltac:(let x := eval vm_compute in (10000000 / r) in exact x) end; split; [reflexivity|]; split; [lia|]; split; [reflexivity|]; split; [lia|]; split; [lia|]; split; intros; lia|]). destruct R. }
  destruct D as (d & E & NZ & _ & DB & DR & DE & DN). unfold aac_time. destruct (Z.eqb_spec rate 0); [congruence|]. cbv zeta. rewrite E. eexists _, _. split; [reflexivity|].
  assert (RP : 0 < rate) by nia. rewrite (u64_id (1024 * d * Z.of_nat i)) by nia. rewrite u64_id by nia. replace (pts + 1024 * d * Z.of_nat i - pts) with (1024 * d * Z.of_nat i) by lia.
  split; [nia|]. split; [intros Q; specialize (DE Q); nia|]. intros I1 Q. specialize (DN Q). nia.
Qed.
Print Assumptions C56_time.
Example C56_time_nonvacuous : aac_time 0 44100 1000 = Some (230400 * 1000 + 1024 * 1000, 231424) /\ 1000 * 1024 * 10000000 / 44100 = 232199546.
Proof. split; vm_compute; reflexivity. Qed.
