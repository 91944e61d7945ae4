(** Lemmas on the DASH presentation: scanning the manifest. *)
From Coq Require Import String ZifyNat.
From Verif Require Import Util Dec_spec Dec_lemmas Str_model Str_proofs Mpd_model Mpd_proofs Points_model Points_proofs Points_proofs2 Pres_model.
Local Open Scope Z_scope.

(** * scanning *)
Definition sc (l : list Z) (st : scan_state * list tag) := fold_left scan_char l st.
Lemma sc_app a b st : sc (a ++ b) st = sc b (sc a st).
Proof. apply fold_left_app. Qed.
Lemma sc_nil st : sc [] st = st.
Proof. reflexivity. Qed.
Lemma sc_value v : forall n a k acc ts, ~ In 34 v -> sc v (InValue n a k acc, ts) = (InValue n a k (acc ++ v), ts).
Proof.
  induction v as [|c v IH]; intros n a k acc ts H; [rewrite app_nil_r; reflexivity|]. unfold sc in *. cbn [fold_left scan_char].
  destruct (Z.eqb_spec c 34) as [->|NE]; [exfalso; apply H; left; reflexivity|]. rewrite IH by (intros X; apply H; right; exact X). rewrite <- app_assoc. reflexivity.
Qed.
Lemma sc_tags l : forall s ts, sc l (s, ts) = (fst (sc l (s, [])), ts ++ snd (sc l (s, []))).
Proof.
  induction l as [|c l IH]; intros s ts; unfold sc in *; cbn [fold_left]; [rewrite app_nil_r; reflexivity|].
  assert (E : forall s, exists s' t, forall ts, scan_char (s, ts) c = (s', ts ++ t)).
  { clear. intros s. destruct s; cbn [scan_char]; repeat match goal with |- context [if ?b then _ else _] => destruct b end;
      first [eexists; exists []; intros ts; rewrite app_nil_r; reflexivity | eexists; eexists; intros ts; reflexivity]. }
  destruct (E s) as (s' & t & Q). rewrite (Q ts), (Q []), (IH s' (ts ++ t)), (IH s' ([] ++ t)). cbn [fst snd]. rewrite <- app_assoc. reflexivity.
Qed.
Definition emits (l : list Z) (ts : list tag) : Prop := forall ts0, sc l (Outside, ts0) = (Outside, ts0 ++ ts).
Lemma emits_app a b s t : emits a s -> emits b t -> emits (a ++ b) (s ++ t).
Proof. intros A B ts0. rewrite sc_app, A, B, <- app_assoc. reflexivity. Qed.
Lemma emits_nil : emits [] [].
Proof. intros ts0. rewrite app_nil_r. reflexivity. Qed.
Lemma emits_flat {A} (f : A -> list Z) (g : A -> list tag) l : (forall x, In x l -> emits (f x) (g x)) -> emits (flat_map f l) (flat_map g l).
Proof.
  induction l as [|x l IH]; intros H; [apply emits_nil|]. cbn [flat_map]. apply emits_app; [apply H; left; reflexivity|]. apply IH. intros y Y. apply H. right. exact Y.
Qed.
Lemma emits_scan l ts : emits l ts -> scan l = (Outside, ts).
Proof. intros H. exact (H []). Qed.
Lemma scan_emits l : fst (scan l) = Outside -> emits l (snd (scan l)).
Proof. intros H ts0. rewrite sc_tags. change (sc l (Outside, [])) with (scan l). rewrite H. reflexivity. Qed.
Lemma dec_no34 n : 0 <= n -> ~ In 34 (dec n).
Proof. intros H. apply digit_not; [unfold is_digit; lia|]. apply dec_digits. exact H. Qed.
Lemma dec_signed_no34 n : ~ In 34 (dec_signed n).
Proof. unfold dec_signed. destruct (Z.ltb_spec n 0); [intros [X|X]; [discriminate|revert X; apply dec_no34; lia]|apply dec_no34; lia]. Qed.
Lemma int32_ok x : 0 <= x < 2 ^ 31 -> int32 x = x.
Proof. intros H. unfold int32. rewrite Z.mod_small; lia. Qed.
Definition selt_attrs (s : selt) : list (list Z * list Z) := (str "d", dec (s_d s)) :: match s_t s with Some t => [(str "t", dec t)] | None => if 0 <? s_r s then [(str "r", dec (s_r s))] else [] end.
Lemma selt_emits (s : selt) : selt_ok s -> emits (selt_text s) [mkTag (str "S") (selt_attrs s)].
Proof.
  destruct s as [d t r]. unfold selt_ok, selt_text, selt_attrs. cbn [s_d s_t s_r]. intros (D & R & T) ts0. rewrite sc_app, sc_app.
  change (sc (str "<S d=""") (sc TAB4 (Outside, ts0))) with (InValue (str "S") [] (str "d") [], ts0). rewrite sc_app, sc_value by (apply dec_no34; exact D).
  destruct t as [t|]; [|destruct (Z.ltb_spec 0 r)].
  - rewrite !sc_app.
    match goal with |- context [sc (str """ t=""") ?st] => change (sc (str """ t=""") st) with (InValue (str "S") [(str "d", dec d)] (str "t") [], ts0) end.
    rewrite sc_value by (apply dec_no34; lia). reflexivity.
  - rewrite !sc_app.
    match goal with |- context [sc (str """ r=""") ?st] => change (sc (str """ r=""") st) with (InValue (str "S") [(str "d", dec d)] (str "r") [], ts0) end.
    rewrite sc_value by (apply dec_no34; lia). reflexivity.
  - reflexivity.
Qed.
(** a representation *)
Definition first_codec (codecs : list Z) : bool := match codecs with [] => true | _ => false end.
Definition video_tag (stream : Z) (codecs : list Z) (r : rep) : tag :=
  mkTag (str "Representation") ([(str "id", dec stream ++ str "_" ++ dec_signed (int32 (r_rate r))); (str "frameRate", str "25"); (str "sar", str "1:1"); (str "startWithSAP", str "1"); (str "bandwidth", dec_signed (int32 (r_rate r)))]
    ++ (if negb (first_codec codecs) && negb (eqs codecs (codec_name (r_private r))) then [(str "codecs", codec_name (r_private r))] else [])
    ++ [(str "width", dec_signed (r_width r)); (str "height", dec_signed (r_height r))]).
Lemma video_emits d codecs reps r : 0 <= d_stream d -> ~ In 34 (codec_name (r_private r)) -> exists t, m_reps (add_video (mkReps d codecs reps) r) = reps ++ t /\ emits t [video_tag (d_stream d) codecs r].
Proof.
  intros D C. unfold add_video. cbn [m_doc m_codecs m_reps]. eexists. split; [reflexivity|]. intros ts0. unfold video_tag. fold (first_codec codecs).
  set (rate := dec_signed (int32 (r_rate r))). assert (N : ~ In 34 rate) by apply dec_signed_no34. set (c := codec_name (r_private r)) in *.
  pose proof (dec_signed_no34 (r_width r)) as NW. pose proof (dec_signed_no34 (r_height r)) as NH. set (w := dec_signed (r_width r)) in *. set (h := dec_signed (r_height r)) in *.
  pose proof (dec_no34 (d_stream d) D) as ND. set (sid := dec (d_stream d)) in *. clearbody rate c w h sid. rewrite !sc_app.
  change (sc (str "<Representation id=""") (sc [9; 9; 9] (Outside, ts0))) with (InValue (str "Representation") [] (str "id") [], ts0).
  rewrite sc_value by exact ND. rewrite sc_value by (intros [X|[]]; discriminate). rewrite sc_value by exact N. cbn [app]. rewrite <- app_assoc.
  match goal with |- context [sc (str """ frameRate=""25"" sar=""1:1"" startWithSAP=""1"" bandwidth=""") ?st] => change (sc (str """ frameRate=""25"" sar=""1:1"" startWithSAP=""1"" bandwidth=""") st)
    with (InValue (str "Representation") [(str "id", sid ++ str "_" ++ rate); (str "frameRate", str "25"); (str "sar", str "1:1"); (str "startWithSAP", str "1")] (str "bandwidth") [], ts0) end.
  rewrite sc_value by exact N. cbn [app].
  destruct (negb (first_codec codecs) && negb (eqs codecs c)).
  - rewrite !sc_app. match goal with |- context [sc (str """ codecs=""") (InValue ?n ?a ?k ?v, ?ts)] => change (sc (str """ codecs=""") (InValue n a k v, ts)) with (InValue n (a ++ [(k, v)]) (str "codecs") [], ts) end.
    rewrite sc_value by exact C. match goal with |- context [sc (str """ width=""") (InValue ?n ?a ?k ?v, ?ts)] => change (sc (str """ width=""") (InValue n a k v, ts)) with (InValue n (a ++ [(k, v)]) (str "width") [], ts) end.
    rewrite sc_value by exact NW. match goal with |- context [sc (str """ height=""") (InValue ?n ?a ?k ?v, ?ts)] => change (sc (str """ height=""") (InValue n a k v, ts)) with (InValue n (a ++ [(k, v)]) (str "height") [], ts) end.
    rewrite sc_value by exact NH. reflexivity.
  - rewrite sc_nil. match goal with |- context [sc (str """ width=""") (InValue ?n ?a ?k ?v, ?ts)] => change (sc (str """ width=""") (InValue n a k v, ts)) with (InValue n (a ++ [(k, v)]) (str "width") [], ts) end.
    rewrite sc_value by exact NW. match goal with |- context [sc (str """ height=""") (InValue ?n ?a ?k ?v, ?ts)] => change (sc (str """ height=""") (InValue n a k v, ts)) with (InValue n (a ++ [(k, v)]) (str "height") [], ts) end.
    rewrite sc_value by exact NH. reflexivity.
Qed.
Definition audio_tag (stream sampling : Z) (r : rep) : tag :=
  mkTag (str "Representation") [(str "id", dec stream); (str "bandwidth", dec_signed (int32 (r_rate r))); (str "audioSamplingRate", dec_signed sampling)].
Lemma audio_emits sampling d codecs reps r : 0 <= d_stream d -> exists t, m_reps (add_audio sampling (mkReps d codecs reps) r) = reps ++ t /\ emits t [audio_tag (d_stream d) sampling r].
Proof.
  intros D. unfold add_audio. cbn [m_doc m_codecs m_reps]. eexists. split; [reflexivity|]. intros ts0. unfold audio_tag.
  set (rate := dec_signed (int32 (r_rate r))). assert (N : ~ In 34 rate) by apply dec_signed_no34. pose proof (dec_signed_no34 sampling) as NS. set (sa := dec_signed sampling) in *.
  pose proof (dec_no34 (d_stream d) D) as ND. set (sid := dec (d_stream d)) in *. clearbody rate sa sid. rewrite !sc_app.
  change (sc (str "<Representation id=""") (sc [9; 9; 9] (Outside, ts0))) with (InValue (str "Representation") [] (str "id") [], ts0).
  rewrite sc_value by exact ND. match goal with |- context [sc (str """ bandwidth=""") (InValue ?n ?a ?k ?v, ?ts)] => change (sc (str """ bandwidth=""") (InValue n a k v, ts)) with (InValue n (a ++ [(k, v)]) (str "bandwidth") [], ts) end.
  rewrite sc_value by exact N. match goal with |- context [sc (str """ audioSamplingRate=""") (InValue ?n ?a ?k ?v, ?ts)] => change (sc (str """ audioSamplingRate=""") (InValue n a k v, ts)) with (InValue n (a ++ [(k, v)]) (str "audioSamplingRate") [], ts) end.
  rewrite sc_value by exact NS. reflexivity.
Qed.
(** all of a stream's *)
Fixpoint video_tags (stream : Z) (codecs : list Z) (l : list rep) : list tag :=
  match l with [] => [] | r :: l => video_tag stream codecs r :: video_tags stream (if first_codec codecs then codec_name (r_private r) else codecs) l end.
Definition codecs_after (codecs : list Z) (l : list rep) : list Z := fold_left (fun c r => if first_codec c then codec_name (r_private r) else c) l codecs.
Definition wider (a b : Z) : Z := if a <? b then b else a.
Lemma videos_emit l : forall d codecs reps, 0 <= d_stream d -> Forall (fun r => ~ In 34 (codec_name (r_private r))) l -> exists t,
  fold_left add_video l (mkReps d codecs reps) = mkReps (mkDoc (d_stream d) (d_group d + zlen l) (fold_left wider (map r_width l) (d_width d)) (fold_left wider (map r_height l) (d_height d)) (d_xml d)) (codecs_after codecs l) (reps ++ t)
  /\ emits t (video_tags (d_stream d) codecs l).
Proof.
  induction l as [|r l IH]; intros d codecs reps D F.
  - exists []. split; [|apply emits_nil]. cbn [fold_left map codecs_after]. rewrite app_nil_r. change (zlen (@nil rep)) with 0. rewrite Z.add_0_r. destruct d; reflexivity.
  - destruct (video_emits d codecs reps r D (Forall_inv F)) as (t & E & M). cbn [fold_left video_tags map codecs_after].
    assert (Q : add_video (mkReps d codecs reps) r = mkReps (mkDoc (d_stream d) (d_group d + 1) (wider (d_width d) (r_width r)) (wider (d_height d) (r_height r)) (d_xml d)) (if first_codec codecs then codec_name (r_private r) else codecs) (reps ++ t)).
    { rewrite <- E. reflexivity. }
    rewrite Q. destruct (IH (mkDoc (d_stream d) (d_group d + 1) (wider (d_width d) (r_width r)) (wider (d_height d) (r_height r)) (d_xml d)) (if first_codec codecs then codec_name (r_private r) else codecs) (reps ++ t) D (Forall_inv_tail F)) as (t2 & E2 & M2). rewrite E2. cbn [d_stream d_group d_width d_height d_xml].
    exists (t ++ t2). split; [|exact (emits_app _ _ [_] _ M M2)]. rewrite app_assoc. replace (zlen (r :: l)) with (1 + zlen l) by (unfold zlen; cbn [length]; lia). rewrite Z.add_assoc. reflexivity.
Qed.
Lemma audios_emit sampling l : forall d codecs reps, 0 <= d_stream d -> exists t,
  fold_left (add_audio sampling) l (mkReps d codecs reps) = mkReps (mkDoc (d_stream d) (d_group d + zlen l) (d_width d) (d_height d) (d_xml d)) (match l with [] => codecs | _ => match codecs with [] => str "mp4a.40.2" | c => c end end) (reps ++ t)
  /\ emits t (map (audio_tag (d_stream d) sampling) l).
Proof.
  induction l as [|r l IH]; intros d codecs reps D.
  - exists []. split; [|apply emits_nil]. cbn [fold_left map]. rewrite app_nil_r. change (zlen (@nil rep)) with 0. rewrite Z.add_0_r. destruct d; reflexivity.
  - destruct (audio_emits sampling d codecs reps r D) as (t & E & M). cbn [fold_left map].
    assert (Q : add_audio sampling (mkReps d codecs reps) r = mkReps (mkDoc (d_stream d) (d_group d + 1) (d_width d) (d_height d) (d_xml d)) (match codecs with [] => str "mp4a.40.2" | c => c end) (reps ++ t)).
    { rewrite <- E. destruct codecs; reflexivity. }
    rewrite Q. destruct (IH (mkDoc (d_stream d) (d_group d + 1) (d_width d) (d_height d) (d_xml d)) (match codecs with [] => str "mp4a.40.2" | c => c end) (reps ++ t) D) as (t2 & E2 & M2). rewrite E2. cbn [d_stream d_group d_width d_height d_xml].
    exists (t ++ t2). split; [|exact (emits_app _ _ [_] _ M M2)]. rewrite app_assoc. replace (zlen (r :: l)) with (1 + zlen l) by (unfold zlen; cbn [length]; lia). rewrite Z.add_assoc.
    f_equal. destruct l; destruct codecs; reflexivity.
Qed.
(** the content of a timeline *)
Lemma timeline_emits pts : Forall pt_ok pts -> exists es, emits (timeline_text pts) (map (fun e => mkTag (str "S") (selt_attrs e)) es) /\ Forall selt_ok es /\ segments 0 es = pts.
Proof.
  intros F. unfold timeline_text.
  assert (I : inv (fold_left (fun m p => add_point m (fst p) (snd p)) pts begin_stream) ([] ++ pts)).
  { apply inv_fold; [|exact F]. exists []. cbn. repeat split; try lia. constructor. }
  cbn [app] in I. set (m := fold_left (fun m p => add_point m (fst p) (snd p)) pts begin_stream) in *.
  assert (J : exists es, m_xml (end_stream m) = flat_map selt_text es /\ Forall selt_ok es /\ segments 0 es = pts).
  { unfold end_stream. destruct (Z.ltb_spec 0 (m_count m)) as [H|H].
    - destruct (inv_flush m pts I H) as (es & X & G & _ & _ & P & _). cbn [m_time m_dur m_count m_xml Z.to_nat repeated] in *. rewrite app_nil_r in P. exists es. auto.
    - destruct I as (es & X & G & C & _ & P & _). replace (Z.to_nat (m_count m)) with 0%nat in P by lia. cbn [repeated] in P. rewrite app_nil_r in P. exists es. auto. }
  destruct J as (es & X & G & P). exists es. split; [|split; assumption]. rewrite X.
  replace (map (fun e => mkTag (str "S") (selt_attrs e)) es) with (flat_map (fun e => [mkTag (str "S") (selt_attrs e)]) es) by (clear; induction es; cbn [flat_map map app]; congruence).
  apply emits_flat. intros e He. apply selt_emits. rewrite Forall_forall in G. apply G. exact He.
Qed.
(** an adaptation set *)
Definition set_tag (stream group : Z) (audio : bool) (codecs : list Z) (width height : Z) : tag :=
  mkTag (str "AdaptationSet") ([(str "id", dec stream); (str "group", dec group); (str "segmentAlignment", str "true"); (str "contentType", if audio then str "audio" else str "video"); (str "mimeType", if audio then str "audio/mp4" else str "video/mp4"); (str "codecs", codecs)]
    ++ if audio then [] else [(str "maxWidth", dec_signed width); (str "maxHeight", dec_signed height)]).
Definition template_tag (name : list Z) (audio : bool) : tag :=
  mkTag (str "SegmentTemplate") [(str "timescale", str "10000000"); (str "media", name ++ str "_$Bandwidth$_$Time$.m4" ++ (if audio then str "a" else str "v")); (str "initialization", name ++ str "_$Bandwidth$_i.m4" ++ (if audio then str "a" else str "v"))].
Definition set_tags (stream group : Z) (name : list Z) (audio : bool) (codecs : list Z) (width height : Z) (cps : list tag) (es : list selt) (reps : list tag) : list tag :=
  [set_tag stream group audio codecs width height] ++ cps ++ [template_tag name audio; mkTag (str "SegmentTimeline") []] ++ map (fun e => mkTag (str "S") (selt_attrs e)) es
  ++ [mkTag (str "/SegmentTimeline") []; mkTag (str "/SegmentTemplate") []] ++ reps ++ [mkTag (str "/AdaptationSet") []].
Lemma head_emits stream group (audio : bool) codecs width height : 0 <= stream -> 0 <= group -> ~ In 34 codecs ->
  emits (set_start stream group audio ++ str " codecs=""" ++ codecs ++ (if audio then [] else str """ maxWidth=""" ++ dec_signed width ++ str """ maxHeight=""" ++ dec_signed height) ++ str """ >" ++ CRLF) [set_tag stream group audio codecs width height].
Proof.
  intros S G C ts0. unfold set_start, set_tag. pose proof (dec_no34 stream S) as NS. pose proof (dec_no34 group G) as NG. pose proof (dec_signed_no34 width) as NW. pose proof (dec_signed_no34 height) as NH.
  set (a := dec stream) in *. set (b := dec group) in *. set (w := dec_signed width) in *. set (h := dec_signed height) in *. clearbody a b w h.
  rewrite !sc_app. change (sc (str "<AdaptationSet id=""") (sc [9; 9] (Outside, ts0))) with (InValue (str "AdaptationSet") [] (str "id") [], ts0). rewrite sc_value by exact NS. cbn [app].
  match goal with |- context [sc (str """ group=""") (InValue ?n ?a ?k ?v, ?ts)] => change (sc (str """ group=""") (InValue n a k v, ts)) with (InValue n (a ++ [(k, v)]) (str "group") [], ts) end. rewrite sc_value by exact NG. cbn [app].
  match goal with |- context [sc (str """ segmentAlignment=""true"" contentType=""") (InValue ?n ?a ?k ?v, ?ts)] => change (sc (str """ segmentAlignment=""true"" contentType=""") (InValue n a k v, ts)) with (InValue n ((a ++ [(k, v)]) ++ [(str "segmentAlignment", str "true")]) (str "contentType") [], ts) end. cbn [app].
  destruct audio.
  - match goal with |- context [sc (str " codecs=""") ?st] => change (sc (str " codecs=""") st) with (InValue (str "AdaptationSet") [(str "id", a); (str "group", b); (str "segmentAlignment", str "true"); (str "contentType", str "audio"); (str "mimeType", str "audio/mp4")] (str "codecs") [], ts0) end.
    rewrite sc_value by exact C. rewrite sc_nil. reflexivity.
  - match goal with |- context [sc (str " codecs=""") ?st] => change (sc (str " codecs=""") st) with (InValue (str "AdaptationSet") [(str "id", a); (str "group", b); (str "segmentAlignment", str "true"); (str "contentType", str "video"); (str "mimeType", str "video/mp4")] (str "codecs") [], ts0) end.
    rewrite sc_value by exact C. rewrite !sc_app. cbn [app].
    match goal with |- context [sc (str """ maxWidth=""") (InValue ?n ?a ?k ?v, ?ts)] => change (sc (str """ maxWidth=""") (InValue n a k v, ts)) with (InValue n (a ++ [(k, v)]) (str "maxWidth") [], ts) end. rewrite sc_value by exact NW.
    match goal with |- context [sc (str """ maxHeight=""") (InValue ?n ?a ?k ?v, ?ts)] => change (sc (str """ maxHeight=""") (InValue n a k v, ts)) with (InValue n (a ++ [(k, v)]) (str "maxHeight") [], ts) end. rewrite sc_value by exact NH. reflexivity.
Qed.
Lemma template_emits name (audio : bool) : ~ In 34 name ->
  emits ([9; 9; 9] ++ str "<SegmentTemplate timescale=""10000000"" media=""" ++ name ++ str "_$Bandwidth$_$Time$.m4" ++ (if audio then str "a" else str "v")
  ++ str """ initialization=""" ++ name ++ str "_$Bandwidth$_i.m4" ++ (if audio then str "a" else str "v") ++ str """ >" ++ CRLF) [template_tag name audio].
Proof.
  intros N ts0. unfold template_tag. rewrite !sc_app.
  change (sc (str "<SegmentTemplate timescale=""10000000"" media=""") (sc [9; 9; 9] (Outside, ts0))) with (InValue (str "SegmentTemplate") [(str "timescale", str "10000000")] (str "media") [], ts0). rewrite sc_value by exact N.
  assert (X : ~ In 34 (if audio then str "a" else str "v")) by (destruct audio; intros [X|[]]; discriminate). set (x := if audio then str "a" else str "v") in *. clearbody x.
  rewrite sc_value by (vm_compute; intuition discriminate). rewrite sc_value by exact X. cbn [app]. rewrite <- app_assoc.
  match goal with |- context [sc (str """ initialization=""") (InValue ?n ?a ?k ?v, ?ts)] => change (sc (str """ initialization=""") (InValue n a k v, ts)) with (InValue n (a ++ [(k, v)]) (str "initialization") [], ts) end. rewrite sc_value by exact N.
  rewrite sc_value by (vm_compute; intuition discriminate). rewrite sc_value by exact X. cbn [app]. rewrite <- !app_assoc. reflexivity.
Qed.
(** a stream *)
Definition strm_codecs (s : strm) : list Z := if n_audio s then match n_reps s with [] => [] | _ => str "mp4a.40.2" end else codecs_after [] (n_reps s).
Definition strm_reps (stream : Z) (s : strm) : list tag := if n_audio s then map (audio_tag stream (n_sampling s)) (n_reps s) else video_tags stream [] (n_reps s).
(** the numbers kept from stream to stream: stream, group, greatest width and height *)
Definition nums := (Z * Z * Z * Z)%type.
Definition nums_of (d : mpd_doc) : nums := (d_stream d, d_group d, d_width d, d_height d).
Definition after (k : nums) (s : strm) : nums := let '(st, g, w, h) := k in
  (st + 1, g + zlen (n_reps s), if n_audio s then w else fold_left wider (map r_width (n_reps s)) w, if n_audio s then h else fold_left wider (map r_height (n_reps s)) h).
Definition strm_tags (cpv cpa : list tag) (k : nums) (s : strm) (es : list selt) : list tag :=
  let '(st, g, _, _) := k in let '(_, _, w, h) := after k s in
  set_tags (st + 1) g (n_name s) (n_audio s) (strm_codecs s) w h (if n_audio s then cpa else cpv) es (strm_reps (st + 1) s).
Fixpoint all_tags (cpv cpa : list tag) (k : nums) (p : pres) (ess : list (list selt)) : list tag :=
  match p, ess with s :: p, es :: ess => strm_tags cpv cpa k s es ++ all_tags cpv cpa (after k s) p ess | _, _ => [] end.
Lemma hex_no34 b : is_byte b -> ~ In 34 (hex_of b).
Proof.
  intros B. assert (X : forall b, is_byte b -> forallb (fun x => negb (x =? 34)) (hex_of b) = true) by (apply byte_sweep; vm_compute; reflexivity).
  intros Y. pose proof (X b B) as Q. rewrite forallb_forall in Q. specialize (Q 34 Y). discriminate.
Qed.
Lemma nth_byte l n : bytes l -> is_byte (nth n l 0).
Proof. intros B. destruct (Nat.lt_ge_cases n (length l)); [exact (proj1 (Forall_forall _ _) B _ (nth_In _ _ H))|rewrite nth_overflow by assumption; unfold is_byte; lia]. Qed.
Lemma codec_no34 l : bytes l -> ~ In 34 (codec_name l).
Proof.
  intros B. unfold codec_name. rewrite !append_hex_eq by (apply bytes_cons; split; [|constructor]; try (apply nth_byte; exact B); unfold compatibility, is_byte; destruct (_ || _); lia). cbn [flat_map]. rewrite !app_nil_r.
  assert (H : forall a b, ~ In 34 a -> ~ In 34 b -> ~ In 34 (a ++ b)) by (intros a b X Y Q; apply in_app_or in Q; tauto).
  repeat apply H; try (apply hex_no34; try (apply nth_byte; exact B); unfold compatibility, is_byte; destruct (_ || _); lia). vm_compute. intuition discriminate.
Qed.
Lemma codecs_after_no34 l : forall c, ~ In 34 c -> Forall (fun r => ~ In 34 (codec_name (r_private r))) l -> ~ In 34 (codecs_after c l).
Proof.
  induction l as [|r l IH]; intros c C F; [exact C|]. cbn [codecs_after fold_left]. apply (IH (if first_codec c then codec_name (r_private r) else c)); [|exact (Forall_inv_tail F)]. destruct (first_codec c); [exact (Forall_inv F)|exact C].
Qed.
Lemma strm_emits cpv cpa cpvt cpat d s pts : 0 <= d_stream d -> 0 <= d_group d -> ~ In 34 (n_name s) -> Forall (fun r => bytes (r_private r)) (n_reps s) ->
  emits (flat_map (fun c => c ++ CRLF) cpv) cpvt -> emits (flat_map (fun c => c ++ CRLF) cpa) cpat -> render (n_points s) = Some pts -> Forall pt_ok (segs pts) ->
  exists d' t es, render_strm cpv cpa d s = Some d' /\ d_xml d' = d_xml d ++ t /\ nums_of d' = after (nums_of d) s /\ emits t (strm_tags cpvt cpat (nums_of d) s es) /\ Forall selt_ok es /\ segments 0 es = segs pts.
Proof.
  intros D G N B Cv Ca R F. unfold render_strm. rewrite R. destruct (timeline_emits (segs pts) F) as (es & E1 & E2 & E3).
  assert (BC : Forall (fun r => ~ In 34 (codec_name (r_private r))) (n_reps s)) by (eapply Forall_impl; [|exact B]; intros r; apply codec_no34).
  set (d1 := mkDoc (d_stream d + 1) (d_group d) (d_width d) (d_height d) (d_xml d)).
  assert (X : exists t, fold_left (if n_audio s then add_audio (n_sampling s) else add_video) (n_reps s) (mkReps d1 [] [])
     = mkReps (mkDoc (d_stream d + 1) (d_group d + zlen (n_reps s)) (if n_audio s then d_width d else fold_left wider (map r_width (n_reps s)) (d_width d)) (if n_audio s then d_height d else fold_left wider (map r_height (n_reps s)) (d_height d)) (d_xml d)) (strm_codecs s) t
     /\ emits t (strm_reps (d_stream d + 1) s)).
  { unfold strm_codecs, strm_reps. destruct (n_audio s).
    - destruct (audios_emit (n_sampling s) (n_reps s) d1 [] [] ltac:(cbn [d1 d_stream]; lia)) as (t & Q1 & Q2). exists t. split; [exact Q1|exact Q2].
    - destruct (videos_emit (n_reps s) d1 [] [] ltac:(cbn [d1 d_stream]; lia) BC) as (t & Q1 & Q2). exists t. split; [exact Q1|exact Q2]. }
  destruct X as (t & X1 & X2). rewrite X1. cbn [m_doc m_codecs m_reps d_stream d_group d_width d_height d_xml]. eexists. eexists. exists es. split; [reflexivity|]. cbn [d_xml]. split; [reflexivity|]. split; [reflexivity|]. split; [|split; assumption].
  unfold strm_tags, nums_of, after, set_tags, set_rest. cbn [m_doc m_codecs m_reps d_stream d_group d_width d_height d_xml].
  set (w := if n_audio s then d_width d else _). set (h := if n_audio s then d_height d else _).
  assert (NC : ~ In 34 (strm_codecs s)).
  { unfold strm_codecs. destruct (n_audio s); [destruct (n_reps s); vm_compute; intuition discriminate|]. apply codecs_after_no34; [intros []|exact BC]. }
  pose proof (head_emits (d_stream d + 1) (d_group d) (n_audio s) (strm_codecs s) w h ltac:(lia) G NC) as H1.
  pose proof (template_emits (n_name s) (n_audio s) N) as H2.
  assert (H3 : emits (flat_map (fun c => c ++ CRLF) (if n_audio s then cpa else cpv)) (if n_audio s then cpat else cpvt)) by (destruct (n_audio s); assumption).
  assert (H4 : emits ([9; 9; 9] ++ str "<SegmentTimeline>" ++ CRLF) [mkTag (str "SegmentTimeline") []]) by (intros ts0; reflexivity).
  assert (H5 : emits ([9; 9; 9] ++ str "</SegmentTimeline>" ++ CRLF ++ [9; 9; 9] ++ str "</SegmentTemplate>" ++ CRLF) [mkTag (str "/SegmentTimeline") []; mkTag (str "/SegmentTemplate") []]) by (exact (emits_app ([9; 9; 9] ++ str "</SegmentTimeline>" ++ CRLF) ([9; 9; 9] ++ str "</SegmentTemplate>" ++ CRLF) [_] [_] (fun ts0 => eq_refl) (fun ts0 => eq_refl))).
  assert (H6 : emits ([9; 9] ++ str "</AdaptationSet>" ++ CRLF) [mkTag (str "/AdaptationSet") []]) by (intros ts0; reflexivity).
  pose proof (emits_app _ _ _ _ H1 (emits_app _ _ _ _ H3 (emits_app _ _ _ _ H2 (emits_app _ _ _ _ H4 (emits_app _ _ _ _ E1 (emits_app _ _ _ _ H5 (emits_app _ _ _ _ X2 H6))))))) as Q.
  rewrite <- !app_assoc in Q. exact Q.
Qed.
