(** Lemmas on the Smooth Streaming manifest: scanning it. *)
From Coq Require Import String ZifyNat.
From Verif Require Import Util Dec_spec Dec_lemmas Str_model HNano_model Mpd_model Points_model Points_proofs Points_proofs2 Pres_model Pres_proofs Pres_proofs2 Smooth_model.
Local Open Scope Z_scope.
Local Ltac Zify.zify_post_hook ::= Z.div_mod_to_equations.

(** * sources *)
Lemma fold_force (m : zmap (list Z)) t : forall p, Forall (fun x => t < fst x) m -> fold_left (fun p x => if fst x <=? t then snd x else p) m p = p.
Proof. induction m as [|x m IH]; intros p F; [reflexivity|]. cbn [fold_left]. pose proof (Forall_inv F) as H. cbv beta in H. replace (fst x <=? t) with false by lia. apply IH. exact (Forall_inv_tail F). Qed.
Lemma fold_force_in (m : zmap (list Z)) t : forall p, sorted m -> (exists k v, In (k, v) m /\ k <= t) -> exists k, In (k, fold_left (fun p x => if fst x <=? t then snd x else p) m p) m /\ k <= t /\ forall k', has_key m k' -> k' <= t -> k' <= k.
Proof.
  induction m as [|(k & v) m IH]; intros p S (k0 & v0 & I & L); [destruct I|]. destruct S as (S1 & S2). cbn [fold_left fst snd].
  destruct (Z.leb_spec k t) as [K|K]; [|exfalso; destruct I as [Q|I]; [assert (k = k0) by congruence; lia|rewrite Forall_forall in S1; specialize (S1 _ I); cbn [fst] in S1; lia]].
  destruct m as [|(k1 & v1) m].
  - exists k. cbn [fold_left]. split; [left; reflexivity|]. split; [exact K|]. intros k' [<-|[]] _. cbn [fst]. lia.
  - destruct (Z.leb_spec k1 t) as [K1|K1].
    + destruct (IH v S2) as (k2 & I2 & L2 & M2); [exists k1, v1; split; [left; reflexivity|exact K1]|]. exists k2. split; [right; exact I2|]. split; [exact L2|]. intros k' [<-|H'] L'; [cbn [fst]; pose proof (M2 k1 (or_introl eq_refl) K1); pose proof (Forall_inv S1) as Q; cbn [fst] in Q; lia|apply M2; assumption].
    + destruct S2 as (S3 & S4). assert (F : Forall (fun x => t < fst x) ((k1, v1) :: m)) by (constructor; [exact K1|eapply Forall_impl; [|exact S3]; intros x X; cbv beta in X; lia]).
      rewrite fold_force by exact F. exists k. split; [left; reflexivity|]. split; [exact K|]. intros k' [<-|H'] L'; [cbn [fst]; lia|]. exfalso. apply in_map_iff in H'. destruct H' as (x & <- & X). rewrite Forall_forall in F. specialize (F x X). lia.
Qed.
Lemma sorted_unique {A} (m : zmap A) : sorted m -> forall k a b, In (k, a) m -> In (k, b) m -> a = b.
Proof.
  induction m as [|(k & v) m IH]; intros S k0 a b A1 B1; [destruct A1|]. destruct S as (S1 & S2); rewrite Forall_forall in S1. destruct A1 as [A1|A1], B1 as [B1|B1].
  - congruence.
  - injection A1 as -> ->. specialize (S1 _ B1). cbn [fst] in S1. lia.
  - injection B1 as -> ->. specialize (S1 _ A1). cbn [fst] in S1. lia.
  - apply (IH S2 k0); assumption.
Qed.
Lemma sorted_head {A} (m : zmap A) k v : sorted ((k, v) :: m) -> forall k', has_key ((k, v) :: m) k' -> k <= k'.
Proof. intros (S & _) k' [<-|H]; [cbn [fst]; lia|]. apply in_map_iff in H. destruct H as (x & <- & X). rewrite Forall_forall in S. specialize (S x X). lia. Qed.
Lemma path_in_force m t : sorted m -> m <> [] -> get_path m t = Some (in_force m t).
Proof.
  intros S N. destruct (path_ok m t S N) as (p & E & H). rewrite E. f_equal. unfold in_force. destruct H as [(k & I & L & M)|(F & k & I & M)].
  - destruct (fold_force_in m t (match m with (_, p) :: _ => p | [] => [] end) S) as (k2 & I2 & L2 & M2); [exists k, p; split; assumption|].
    assert (k = k2) by (assert (k2 <= k) by (apply M; [apply (in_map fst _ _ I2)|exact L2]); assert (k <= k2) by (apply M2; [apply (in_map fst _ _ I)|exact L]); lia). subst k2. exact (sorted_unique m S k _ _ I I2).
  - rewrite fold_force by (apply Forall_forall; intros x X; apply F; apply (in_map fst _ _ X)). destruct m as [|(k1 & v1) m]; [contradiction|]. assert (k = k1) by (pose proof (M k1 (or_introl eq_refl)); pose proof (sorted_head m k1 v1 S k (in_map fst _ _ I)); lia). subst k1. apply (sorted_unique _ S k); [exact I|left; reflexivity].
Qed.
Lemma in_force_in m t : m <> [] -> exists k, In (k, in_force m t) m.
Proof.
  intros N. unfold in_force. assert (G : forall (l : zmap (list Z)) p, (exists k, In (k, p) m) -> (forall x, In x l -> In x m) -> exists k, In (k, fold_left (fun p x => if fst x <=? t then snd x else p) l p) m).
  { induction l as [|x l IH]; intros p P F; [exact P|]. cbn [fold_left]. apply IH; [|intros y Y; apply F; right; exact Y]. destruct (fst x <=? t); [|exact P]. exists (fst x). rewrite <- surjective_pairing. apply F. left. reflexivity. }
  apply G; [|auto]. destruct m as [|(k & v) m]; [contradiction|]. exists k. left. reflexivity.
Qed.
(** * texts without quotes *)
Lemma no34_app a b : ~ In 34 a -> ~ In 34 b -> ~ In 34 (a ++ b).
Proof. intros X Y Q. apply in_app_or in Q. tauto. Qed.
Lemma hns_no34 x k : hns x = Some k -> ~ In 34 k.
Proof.
  assert (T : forall n, ~ In 34 (to_string n)).
  { intros n. unfold to_string. assert (P : forall l y, ~ In 34 (pad l y)) by (intros l y; unfold pad; destruct (y <? l); vm_compute; intuition discriminate).
    repeat apply no34_app; try apply P; try apply dec_signed_no34; vm_compute; intuition discriminate. }
  unfold hns. destruct (x <? 0); [destruct (x =? - 2 ^ 63); [discriminate|]; intros E; assert (Q : k = 45 :: to_string (x * -1)) by congruence; subst k; intros [X|X]; [discriminate|exact (T _ X)]|]. intros E. assert (Q : k = to_string (x * 1)) by congruence. subst k. apply T.
Qed.
Lemma i64_small x : - 2 ^ 63 <= x < 2 ^ 63 -> i64 x = x.
Proof.
  intros H. unfold i64. destruct (Z_lt_le_dec x 0) as [L|L].
  - rewrite <- (Z.mod_add x 1) by lia. rewrite Z.mod_small by lia. replace (x + 1 * 2 ^ 64 <? 2 ^ 63) with false by lia. lia.
  - rewrite Z.mod_small by lia. replace (x <? 2 ^ 63) with true by lia. reflexivity.
Qed.
Lemma hns_some x : - 2 ^ 63 < x < 2 ^ 63 -> exists k, hns (i64 x) = Some k /\ ~ In 34 k.
Proof.
  intros H. rewrite i64_small by lia. assert (E : exists k, hns x = Some k) by (unfold hns; destruct (x <? 0); [replace (x =? - 2 ^ 63) with false by lia|]; eexists; reflexivity). destruct E as (k & E). exists k. split; [exact E|exact (hns_no34 x k E)].
Qed.
Lemma u64_nonneg x : 0 <= u64 x. Proof. unfold u64. apply Z.mod_pos_bound. lia. Qed.

(** * scanning *)
Local Ltac attribute q key :=
  match goal with |- context [sc (str q) (InValue ?n ?a ?k ?v, ?ts)] => change (sc (str q) (InValue n a k v, ts)) with (InValue n (a ++ [(k, v)]) (str key) [], ts) end.
(** the attributes a client may look at *)
Definition info_tag (element path : list Z) (composition computed : Z) (k : list Z) : tag :=
  mkTag element [(str "p", path); (str "t", dec (u64 composition)); (str "c", dec (u64 computed)); (str "k", k)].
Lemma info_emits (cp : bool) path composition computed t : ~ In 34 path -> - 2 ^ 63 < computed < 2 ^ 63 ->
  exists x k, info (if cp then str "cp" else str "h") path composition computed = Some x /\ emits x [info_tag (if cp then str "cp" else str "h") path composition computed k] /\ t = t :> Z.
Proof.
  intros P C. destruct (hns_some computed C) as (k & E & K). unfold info. rewrite E. eexists. exists k. split; [reflexivity|]. split; [|reflexivity]. intros ts0.
  pose proof (dec_no34 (u64 composition) (u64_nonneg _)) as D1. pose proof (dec_no34 (u64 computed) (u64_nonneg _)) as D2. unfold info_tag. set (a := dec (u64 composition)) in *. set (b := dec (u64 computed)) in *. clearbody a b. rewrite !sc_app.
  assert (W : sc (str " p=""") (sc (if cp then str "cp" else str "h") (sc (str "<") (Outside, ts0))) = (InValue (if cp then str "cp" else str "h") [] (str "p") [], ts0)) by (destruct cp; reflexivity). rewrite W.
  rewrite sc_value by exact P. attribute """ t="""%string "t"%string. rewrite sc_value by exact D1. attribute """ c="""%string "c"%string. rewrite sc_value by exact D2. attribute """ k="""%string "k"%string. rewrite sc_value by exact K. destruct cp; reflexivity.
Qed.
(** a tag and what it says, leaving the reading for humans (k) aside *)
Definition says (t : tag) : list Z * option (list Z) * option (list Z) * option (list Z) := (tag_name t, attr (str "p") t, attr (str "t") t, attr (str "c") t).
Definition said (cp : bool) (path : list Z) (composition computed : Z) : list Z * option (list Z) * option (list Z) * option (list Z) :=
  (if cp then str "cp" else str "h", Some path, Some (dec (u64 composition)), Some (dec (u64 computed))).
Lemma info_at_emits (cp : bool) m composition computed : sorted m -> m <> [] -> Forall (fun x => ~ In 34 (snd x)) m -> - 2 ^ 63 < computed < 2 ^ 63 ->
  exists x ts, info_at (if cp then str "cp" else str "h") m composition computed = Some x /\ emits x ts /\ map says ts = [said cp (in_force m computed) composition computed].
Proof.
  intros S N F C. unfold info_at. rewrite path_in_force by assumption. destruct (in_force_in m computed N) as (k0 & I). rewrite Forall_forall in F. specialize (F _ I). cbn [snd] in F.
  destruct (info_emits cp (in_force m computed) composition computed 0 F C) as (x & k & E & M & _). exists x. eexists. split; [exact E|]. split; [exact M|]. destruct cp; reflexivity.
Qed.
Definition said_at (y : sm_strm) (pt : point) (m : zmap (list Z)) : list (list Z * option (list Z) * option (list Z) * option (list Z)) :=
  if p_orig pt =? CROSS_POINT_TIME then
    match get (p_time pt) (y_cross y) with Some c => [said true (in_force m (c_time c)) (c_orig c) (c_time c); said true (in_force m (c_time2 c)) (c_orig2 c) (c_time2 c)] | None => [] end
  else [said false (in_force m (p_time pt)) (p_orig pt) (p_time pt)].
Definition path_fit (m : zmap (list Z)) : Prop := m <> [] /\ sorted m /\ Forall (fun x => ~ In 34 (snd x)) m.
Definition point_fit (y : sm_strm) (pt : point) : Prop := 0 <= p_time pt < 2 ^ 63 /\ 0 <= p_dur pt /\
  (p_orig pt = CROSS_POINT_TIME -> exists c, get (p_time pt) (y_cross y) = Some c /\ - 2 ^ 63 < c_time c < 2 ^ 63 /\ - 2 ^ 63 < c_time2 c < 2 ^ 63).
Lemma source_emits y pt m : path_fit m -> point_fit y pt -> exists x ts, source y pt m = Some x /\ emits x ts /\ map says ts = said_at y pt m.
Proof.
  intros (N & S & F) (T & D & C). unfold source, said_at. destruct (Z.eqb_spec (p_orig pt) CROSS_POINT_TIME) as [Q|Q].
  - destruct (C Q) as (c & G & C1 & C2). rewrite G. destruct (info_at_emits true m (c_orig c) (c_time c) S N F C1) as (a & ta & Ea & Ma & Sa). destruct (info_at_emits true m (c_orig2 c) (c_time2 c) S N F C2) as (b & tb & Eb & Mb & Sb).
    cbv iota in Ea, Eb. rewrite Ea, Eb. exists (a ++ b), (ta ++ tb). split; [reflexivity|]. split; [apply emits_app; assumption|]. rewrite map_app, Sa, Sb. reflexivity.
  - apply (info_at_emits false m (p_orig pt) (p_time pt) S N F). lia.
Qed.
Lemma sources_emit y pt l : Forall path_fit l -> point_fit y pt -> exists x ts, in_row (map (source y pt) l) = Some x /\ emits x ts /\ map says ts = flat_map (said_at y pt) l.
Proof.
  intros F P. induction l as [|m l IH]; [exists [], []; split; [reflexivity|]; split; [apply emits_nil|reflexivity]|].
  destruct (source_emits y pt m (Forall_inv F) P) as (a & ta & Ea & Ma & Sa). destruct (IH (Forall_inv_tail F)) as (b & tb & Eb & Mb & Sb). cbn [map in_row flat_map]. rewrite Ea, Eb.
  exists (a ++ b), (ta ++ tb). split; [reflexivity|]. split; [apply emits_app; assumption|]. rewrite map_app, Sa, Sb. reflexivity.
Qed.
Definition c_tag (first : bool) (pt : point) : tag := mkTag (str "c") ((str "d", dec (p_dur pt)) :: if first then [(str "t", dec (p_time pt))] else []).
Definition chunk_tags (first : bool) (pt : point) (ts : list tag) : list tag := c_tag first pt :: ts ++ [mkTag (str "/c") []].
Lemma chunk_emits y first pt : Forall path_fit (y_paths y) -> point_fit y pt -> exists x ts, chunk y first pt = Some x /\ emits x (chunk_tags first pt ts) /\ map says ts = flat_map (said_at y pt) (y_paths y).
Proof.
  intros F P. destruct (sources_emit y pt (y_paths y) F P) as (s & ts & E & M & Q). unfold chunk. rewrite E. eexists. exists ts. split; [reflexivity|]. split; [|exact Q].
  assert (H1 : emits (str "<c d=""" ++ dec (p_dur pt) ++ (if first then str """ t=""" ++ dec (p_time pt) else []) ++ str """>") [c_tag first pt]).
  { destruct P as (P1 & P2 & _). intros ts0. unfold c_tag. pose proof (dec_no34 (p_dur pt) P2) as D1. pose proof (dec_no34 (p_time pt) ltac:(lia)) as D2. set (d := dec (p_dur pt)) in *. set (t := dec (p_time pt)) in *. clearbody d t. rewrite !sc_app.
    change (sc (str "<c d=""") (Outside, ts0)) with (InValue (str "c") [] (str "d") [], ts0). rewrite sc_value by exact D1. destruct first; [|reflexivity]. rewrite sc_app. attribute """ t="""%string "t"%string. rewrite sc_value by exact D2. reflexivity. }
  assert (H2 : emits (str "</c>" ++ CRLF) [mkTag (str "/c") []]) by (intros ts0; reflexivity).
  pose proof (emits_app _ _ _ _ H1 (emits_app _ _ _ _ M H2)) as R. rewrite <- !app_assoc in R. exact R.
Qed.
(** levels *)
Definition level_tag (y : sm_strm) (index : Z) (r : rep) (data : list Z) : tag :=
  mkTag (str "QualityLevel") (if n_audio (y_strm y) then
    [(str "Index", dec index); (str "Bitrate", dec_signed (int32 (r_rate r))); (str "FourCC", []); (str "AudioTag", str "255"); (str "CodecPrivateData", []); (str "Channels", dec_signed (y_channels y)); (str "SamplingRate", dec_signed (n_sampling (y_strm y))); (str "BitsPerSample", dec_signed (y_bits y)); (str "PacketSize", str "4")]
  else [(str "Index", dec index); (str "Bitrate", dec_signed (int32 (r_rate r))); (str "CodecPrivateData", hexs data); (str "FourCC", str "AVC1"); (str "MaxWidth", dec_signed (r_width r)); (str "MaxHeight", dec_signed (r_height r))]).
Lemma hex_chars_eq l : bytes l -> flat_map (fun b => let ch := if b <? 128 then b else b - 256 in [hex_digit (Z.land (Z.shiftr ch 4) 15); hex_digit (Z.land ch 15)]) l = hexs l.
Proof.
  intros B. unfold hexs. assert (X : forall b, is_byte b -> (fun b => let ch := if b <? 128 then b else b - 256 in (hex_digit (Z.land (Z.shiftr ch 4) 15) =? hex_char (b / 16)) && (hex_digit (Z.land ch 15) =? hex_char (b mod 16))) b = true) by (apply byte_sweep; vm_compute; reflexivity).
  rewrite !flat_map_concat_map. f_equal. apply map_ext_in. intros b I. pose proof (proj1 (Forall_forall _ _) B b I) as H. specialize (X b H). cbv beta zeta in *. apply andb_prop in X. destruct X as [X1 X2]. apply Z.eqb_eq in X1, X2. rewrite X1, X2. reflexivity.
Qed.
Lemma hexs_no34 l : bytes l -> ~ In 34 (hexs l).
Proof.
  intros B I. unfold hexs in I. apply in_flat_map in I. destruct I as (b & Ib & I). pose proof (proj1 (Forall_forall _ _) B b Ib) as H. unfold is_byte in H.
  assert (G : forall x, 0 <= x < 16 -> hex_char x <> 34) by (intros x X; unfold hex_char; destruct (x <? 10); lia). destruct I as [I|[I|[]]]; revert I; apply G; lia.
Qed.
Lemma video_level_emits y index r d : n_audio (y_strm y) = false -> 0 <= index -> start_codes (r_private r) = Some d -> bytes d -> exists x, video_level index r = Some x /\ emits x [level_tag y index r d].
Proof.
  intros A I E B. unfold video_level. rewrite E. unfold append_hex_buffer. rewrite hex_chars_eq by exact B. eexists. split; [reflexivity|]. intros ts0. unfold level_tag. rewrite A.
  pose proof (dec_no34 index I) as D1. pose proof (dec_signed_no34 (int32 (r_rate r))) as D2. pose proof (hexs_no34 d B) as D3. pose proof (dec_signed_no34 (r_width r)) as D4. pose proof (dec_signed_no34 (r_height r)) as D5.
  set (a1 := dec index) in *. set (a2 := dec_signed (int32 (r_rate r))) in *. set (a3 := hexs d) in *. set (a4 := dec_signed (r_width r)) in *. set (a5 := dec_signed (r_height r)) in *. clearbody a1 a2 a3 a4 a5. rewrite !sc_app.
  change (sc (str "<QualityLevel Index=""") (Outside, ts0)) with (InValue (str "QualityLevel") [] (str "Index") [], ts0).
  rewrite sc_value by exact D1. attribute """ Bitrate="""%string "Bitrate"%string. rewrite sc_value by exact D2. attribute """ CodecPrivateData="""%string "CodecPrivateData"%string. rewrite sc_value by exact D3.
  match goal with |- context [sc (str """ FourCC=""AVC1"" MaxWidth=""") (InValue ?n ?a ?k ?v, ?ts)] => change (sc (str """ FourCC=""AVC1"" MaxWidth=""") (InValue n a k v, ts)) with (InValue n ((a ++ [(k, v)]) ++ [(str "FourCC", str "AVC1")]) (str "MaxWidth") [], ts) end.
  rewrite sc_value by exact D4. attribute """ MaxHeight="""%string "MaxHeight"%string. rewrite sc_value by exact D5. reflexivity.
Qed.
Lemma audio_level_emits y index r d : n_audio (y_strm y) = true -> 0 <= index -> exists x, audio_level y index r = Some x /\ emits x [level_tag y index r d].
Proof.
  intros A I. unfold audio_level. eexists. split; [reflexivity|]. intros ts0. unfold level_tag. rewrite A.
  pose proof (dec_no34 index I) as D1. pose proof (dec_signed_no34 (int32 (r_rate r))) as D2. pose proof (dec_signed_no34 (y_channels y)) as D3. pose proof (dec_signed_no34 (n_sampling (y_strm y))) as D4. pose proof (dec_signed_no34 (y_bits y)) as D5.
  set (a1 := dec index) in *. set (a2 := dec_signed (int32 (r_rate r))) in *. set (a3 := dec_signed (y_channels y)) in *. set (a4 := dec_signed (n_sampling (y_strm y))) in *. set (a5 := dec_signed (y_bits y)) in *. clearbody a1 a2 a3 a4 a5. rewrite !sc_app.
  change (sc (str "<QualityLevel Index=""") (Outside, ts0)) with (InValue (str "QualityLevel") [] (str "Index") [], ts0).
  rewrite sc_value by exact D1. attribute """ Bitrate="""%string "Bitrate"%string. rewrite sc_value by exact D2.
  match goal with |- context [sc (str """ FourCC="""" AudioTag=""255"" CodecPrivateData=""""  Channels=""") (InValue ?n ?a ?k ?v, ?ts)] => change (sc (str """ FourCC="""" AudioTag=""255"" CodecPrivateData=""""  Channels=""") (InValue n a k v, ts))
    with (InValue n ((((a ++ [(k, v)]) ++ [(str "FourCC", [])]) ++ [(str "AudioTag", str "255")]) ++ [(str "CodecPrivateData", [])]) (str "Channels") [], ts) end.
  rewrite sc_value by exact D3. attribute """ SamplingRate="""%string "SamplingRate"%string. rewrite sc_value by exact D4. attribute """ BitsPerSample="""%string "BitsPerSample"%string. rewrite sc_value by exact D5. reflexivity.
Qed.
Definition data_of (r : rep) : list Z := match start_codes (r_private r) with Some d => d | None => [] end.
Definition level_fit (y : sm_strm) (r : rep) : Prop := n_audio (y_strm y) = false -> exists d, start_codes (r_private r) = Some d /\ bytes d.
Fixpoint level_tags (y : sm_strm) (index : Z) (l : list rep) : list tag := match l with [] => [] | r :: l => level_tag y index r (data_of r) :: level_tags y (index + 1) l end.
Lemma levels_emit y l : forall index, 0 <= index -> Forall (level_fit y) l -> exists x, levels y index l = Some x /\ emits x (level_tags y index l).
Proof.
  induction l as [|r l IH]; intros index I F; [exists []; split; [reflexivity|apply emits_nil]|]. cbn [levels level_tags]. destruct (IH (index + 1) ltac:(lia) (Forall_inv_tail F)) as (b & Eb & Mb). rewrite Eb.
  assert (A : exists a, (if n_audio (y_strm y) then audio_level y index r else video_level index r) = Some a /\ emits a [level_tag y index r (data_of r)]).
  { destruct (n_audio (y_strm y)) eqn:Q; [apply audio_level_emits; assumption|]. destruct (Forall_inv F Q) as (d & D1 & D2). unfold data_of. rewrite D1. apply video_level_emits; assumption. }
  destruct A as (a & Ea & Ma). rewrite Ea. exists (a ++ b). split; [reflexivity|]. exact (emits_app _ _ [_] _ Ma Mb).
Qed.
(** a stream *)
Definition index_tag (s : strm) : tag :=
  mkTag (str "StreamIndex") [(str "Type", if n_audio s then str "audio" else str "video"); (str "Url", n_name s ++ str "_{bitrate}_{start time}" ++ (if n_audio s then str ".m4a" else str ".m4v")); (str "Name", n_name s); (str "Chunks", dec (zlen (n_points s))); (str "QualityLevels", dec (zlen (n_reps s)))].
Lemma index_emits s : ~ In 34 (n_name s) -> emits (stream_index s) [index_tag s].
Proof.
  intros N ts0. unfold stream_index, index_tag. pose proof (dec_no34 (zlen (n_points s)) ltac:(unfold zlen; lia)) as D1. pose proof (dec_no34 (zlen (n_reps s)) ltac:(unfold zlen; lia)) as D2. set (a := dec (zlen (n_points s))) in *. set (b := dec (zlen (n_reps s))) in *. clearbody a b. set (nm := n_name s) in *. clearbody nm.
  rewrite !sc_app. change (sc (str "<StreamIndex Type=""") (Outside, ts0)) with (InValue (str "StreamIndex") [] (str "Type") [], ts0).
  rewrite sc_value by (destruct (n_audio s); vm_compute; intuition discriminate). attribute """ Url="""%string "Url"%string. rewrite sc_value by exact N. rewrite sc_value by (vm_compute; intuition discriminate). rewrite sc_value by (destruct (n_audio s); vm_compute; intuition discriminate).
  attribute """ Name="""%string "Name"%string. rewrite sc_value by exact N. attribute """ Chunks="""%string "Chunks"%string. rewrite sc_value by exact D1. attribute """ QualityLevels="""%string "QualityLevels"%string. rewrite sc_value by exact D2.
  rewrite <- !app_assoc. destruct (n_audio s); reflexivity.
Qed.
Fixpoint chunks_tags (first : bool) (l : list (point * list tag)) : list tag := match l with [] => [] | (p, ts) :: r => chunk_tags first p ts ++ chunks_tags false r end.
Definition told (y : sm_strm) (x : point * list tag) : Prop := map says (snd x) = flat_map (said_at y (fst x)) (y_paths y).
Lemma chunk_row y first pts : Forall path_fit (y_paths y) -> Forall (point_fit y) pts -> exists x l, in_row (match pts with [] => [] | p :: r => chunk y first p :: map (chunk y false) r end) = Some x /\ emits x (chunks_tags first l) /\ map fst l = pts /\ Forall (told y) l.
Proof.
  intros F. revert first. induction pts as [|p pts IH]; intros first P; [exists [], []; split; [reflexivity|]; split; [apply emits_nil|]; split; [reflexivity|constructor]|].
  destruct (chunk_emits y first p F (Forall_inv P)) as (a & ts & Ea & Ma & Sa). destruct (IH false (Forall_inv_tail P)) as (b & l & Eb & Mb & Lb & Tb).
  assert (W : in_row (map (chunk y false) pts) = Some b) by (destruct pts; exact Eb). cbn [in_row]. rewrite Ea, W. exists (a ++ b), ((p, ts) :: l). split; [reflexivity|]. split; [cbn [chunks_tags]; apply emits_app; assumption|]. split; [cbn [map fst]; rewrite Lb; reflexivity|]. constructor; [exact Sa|exact Tb].
Qed.
Definition strm_fit (y : sm_strm) : Prop :=
  ~ In 34 (n_name (y_strm y)) /\ Forall (level_fit y) (n_reps (y_strm y)) /\ Forall path_fit (y_paths y) /\ exists pts, render (n_points (y_strm y)) = Some pts /\ Forall (point_fit y) pts.
Definition stream_tags (y : sm_strm) (index : Z) (l : list (point * list tag)) : list tag := index_tag (y_strm y) :: level_tags y index (n_reps (y_strm y)) ++ chunks_tags true l ++ [mkTag (str "/StreamIndex") []].
Lemma stream_emits y index : 0 <= index -> strm_fit y -> exists x l, sm_stream index y = Some x /\ emits x (stream_tags y index l) /\ render (n_points (y_strm y)) = Some (map fst l) /\ Forall (told y) l.
Proof.
  intros I (N & L & F & pts & R & P). unfold sm_stream. destruct (levels_emit y _ index I L) as (a & Ea & Ma). rewrite Ea, R. destruct (chunk_row y true pts F P) as (b & l & Eb & Mb & Lb & Tb).
  assert (W : chunks y pts = Some b) by (destruct pts; exact Eb). rewrite W. eexists. exists l. split; [reflexivity|]. split; [|split; [rewrite Lb; reflexivity|exact Tb]].
  unfold stream_tags. apply (emits_app _ _ [_] _ (index_emits (y_strm y) N)). apply emits_app; [exact Ma|]. apply emits_app; [exact Mb|]. intros ts0. reflexivity.
Qed.
Fixpoint streams_tags (index : Z) (l : list (sm_strm * list (point * list tag))) : list tag := match l with [] => [] | (y, c) :: r => stream_tags y index c ++ streams_tags (index + zlen (n_reps (y_strm y))) r end.
Definition shown (x : sm_strm * list (point * list tag)) : Prop := render (n_points (y_strm (fst x))) = Some (map fst (snd x)) /\ Forall (told (fst x)) (snd x).
Lemma streams_emit l : forall index, 0 <= index -> Forall strm_fit l -> exists x c, sm_streams index l = Some x /\ emits x (streams_tags index c) /\ map fst c = l /\ Forall shown c.
Proof.
  induction l as [|y l IH]; intros index I F; [exists [], []; split; [reflexivity|]; split; [apply emits_nil|]; split; [reflexivity|constructor]|].
  destruct (stream_emits y index I (Forall_inv F)) as (a & c & Ea & Ma & R & T). destruct (IH (index + zlen (n_reps (y_strm y))) ltac:(unfold zlen; lia) (Forall_inv_tail F)) as (b & cs & Eb & Mb & Lb & Sb).
  cbn [sm_streams]. rewrite Ea, Eb. exists (a ++ b), ((y, c) :: cs). split; [reflexivity|]. split; [cbn [streams_tags]; apply emits_app; assumption|]. split; [cbn [map fst]; rewrite Lb; reflexivity|]. constructor; [split; assumption|exact Sb].
Qed.
Definition root_tag (d : Z) : tag := mkTag (str "SmoothStreamingMedia") [(str "MajorVersion", str "2"); (str "MinorVersion", str "1"); (str "Duration", dec d)].
Lemma text_emits l s0 : by_id (map y_strm l) 0 = Some s0 -> 0 <= duration (n_points s0) -> Forall strm_fit l -> exists text c, smooth_text l = Some text /\ emits text (root_tag (duration (n_points s0)) :: streams_tags 0 c ++ [mkTag (str "/SmoothStreamingMedia") []]) /\ map fst c = l /\ Forall shown c.
Proof.
  intros B D F. unfold smooth_text. rewrite B. destruct (streams_emit l 0 ltac:(lia) F) as (x & c & E & M & L & S). rewrite E. eexists. exists c. split; [reflexivity|]. split; [|split; assumption].
  assert (H1 : emits (sm_begin (duration (n_points s0))) [root_tag (duration (n_points s0))]).
  { intros ts0. unfold sm_begin, root_tag. pose proof (dec_no34 _ D) as D1. set (d := dec (duration (n_points s0))) in *. clearbody d. rewrite !sc_app.
    change (sc (str "<SmoothStreamingMedia MajorVersion=""2"" MinorVersion=""1"" Duration=""") (Outside, ts0)) with (InValue (str "SmoothStreamingMedia") [(str "MajorVersion", str "2"); (str "MinorVersion", str "1")] (str "Duration") [], ts0).
    rewrite sc_value by exact D1. reflexivity. }
  apply (emits_app _ _ [_] _ H1). apply emits_app; [exact M|]. intros ts0. reflexivity.
Qed.
