(** Lemmas on the HLS playlist. *)
From Coq Require Import String ZifyNat.
From Verif Require Import Util Dec_spec Dec_lemmas Str_model Str_proofs Mpd_model Mpd_proofs Hls_model.
Local Open Scope Z_scope.

Lemma lines_line : forall l cur r, ~ In 13 l -> lines cur (l ++ CRLF ++ r) = (cur ++ l) :: lines [] r.
Proof.
  induction l as [|c l IH]; intros cur r H; [rewrite app_nil_r; reflexivity|].
  assert (N : c <> 13) by (intros ->; apply H; left; reflexivity).
  cbn [app]. change (lines cur (c :: l ++ CRLF ++ r) = (cur ++ c :: l) :: lines [] r).
  assert (E : lines cur (c :: l ++ CRLF ++ r) = lines (cur ++ [c]) (l ++ CRLF ++ r)).
  { cbn [lines]. destruct c as [|p|p]; try reflexivity. do 4 (destruct p as [p|p|]; try reflexivity). exfalso; apply N; reflexivity. }
  rewrite E, IH by (intros X; apply H; right; exact X). rewrite <- app_assoc. reflexivity.
Qed.
(** replacing where the only '$' are those of the pattern *)
Lemma strstr_plain : forall u v, ~ In 36 u -> strstr (u ++ BITRATE ++ v) BITRATE = Some (length u).
Proof.
  induction u as [|c u IH]; intros v H.
  - cbn [app length]. change (strstr (BITRATE ++ v) BITRATE) with (if is_prefix BITRATE (BITRATE ++ v) then Some 0%nat else match BITRATE ++ v with [] => None | _ :: s' => match strstr s' BITRATE with Some n => Some (S n) | None => None end end).
    replace (is_prefix BITRATE (BITRATE ++ v)) with true; [reflexivity|]. symmetry. apply is_prefix_spec. exists v. reflexivity.
  - assert (N : c <> 36) by (intros ->; apply H; left; reflexivity). cbn [app strstr length].
    replace (is_prefix BITRATE (c :: u ++ BITRATE ++ v)) with false.
    + rewrite IH by (intros X; apply H; right; exact X). reflexivity.
    + change (is_prefix BITRATE (c :: u ++ BITRATE ++ v)) with ((36 =? c) && is_prefix (str "(BITRATE)") (u ++ BITRATE ++ v)). replace (36 =? c) with false by lia. reflexivity.
Qed.
Lemma strstr_none : forall u, ~ In 36 u -> strstr u BITRATE = None.
Proof.
  induction u as [|c u IH]; intros H; [reflexivity|]. assert (N : c <> 36) by (intros ->; apply H; left; reflexivity). cbn [strstr].
  change (is_prefix BITRATE (c :: u)) with ((36 =? c) && is_prefix (str "(BITRATE)") u). replace (36 =? c) with false by lia. cbn [andb].
  rewrite IH by (intros X; apply H; right; exact X). reflexivity.
Qed.
Lemma split_plain : forall ts t fuel, Forall (fun x => ~ In 36 x) (t :: ts) -> (length ts < fuel)%nat ->
  split_loop fuel (join BITRATE (t :: ts)) BITRATE = Some (t :: ts).
Proof.
  induction ts as [|u ts IH]; intros t fuel F L; (destruct fuel as [|fuel]; [lia|]); cbn [length] in L.
  - cbn [join flat_map split_loop]. rewrite app_nil_r. rewrite strstr_none by exact (Forall_inv F). reflexivity.
  - cbn [join flat_map split_loop]. rewrite <- app_assoc. rewrite strstr_plain by exact (Forall_inv F).
    replace (skipn (length t + length BITRATE) (t ++ BITRATE ++ u ++ flat_map (fun x => BITRATE ++ x) ts)) with (join BITRATE (u :: ts)).
    + rewrite IH by (try exact (Forall_inv_tail F); lia). rewrite firstn_app, Nat.sub_diag, firstn_all, firstn_O, app_nil_r. reflexivity.
    + rewrite app_assoc. rewrite skipn_app. rewrite skipn_all2 by (rewrite app_length; lia). rewrite app_length, Nat.sub_diag. reflexivity.
Qed.
Lemma join_length : forall ts t, (length ts <= length (join BITRATE (t :: ts)))%nat.
Proof.
  induction ts as [|u ts IH]; intros t; [cbn; lia|]. cbn [join flat_map]. specialize (IH u). cbn [join] in IH. rewrite !app_length in *. cbn [length BITRATE str] in *. lia.
Qed.
Lemma replace_plain : forall ts t new, Forall (fun x => ~ In 36 x) (t :: ts) -> replace (join BITRATE (t :: ts)) new BITRATE = Some (join new (t :: ts)).
Proof. intros ts t new F. unfold replace, split. rewrite split_plain; [reflexivity|exact F|]. pose proof (join_length ts t). lia. Qed.

Lemma dec_not : forall n c, 0 <= n -> ~ is_digit c -> ~ In c (dec n).
Proof. intros n c H D. apply digit_not; [exact D|apply dec_digits; exact H]. Qed.
(** points of a video stream *)
Definition pts_text (h : hls) (pts : list (Z * Z)) : list Z := flat_map (fun p => segment_text h (fst p) (snd p)) pts.
Lemma calls_points : forall pts h, h_video h = true -> h_begin h = false ->
  calls h (map (fun p => Point (fst p) (snd p)) pts) = with_body h (h_body h ++ pts_text h pts).
Proof.
  induction pts as [|(t & d) pts IH]; intros h V B.
  - cbn [map calls fold_left pts_text flat_map]. rewrite app_nil_r. destruct h; cbn in *; subst; reflexivity.
  - cbn [map]. change (calls (do_call h (Point t d)) (map (fun p => Point (fst p) (snd p)) pts) = with_body h (h_body h ++ pts_text h ((t, d) :: pts))).
    cbn [do_call]. rewrite V, B. cbn [app]. rewrite IH by (cbn; assumption || reflexivity).
    unfold with_body, pts_text. cbn [h_body h_video h_prefix h_encrypted h_key h_named flat_map fst snd]. rewrite <- app_assoc. reflexivity.
Qed.

Definition seg_a (pre : list Z) (p : Z * Z) : list Z :=
  (str "#EXTINF:" ++ dec (snd p / 10000000) ++ str "." ++ dec (snd p mod 1000000) ++ str ",no-desc") ++ CRLF ++ pre ++ str "_".
Definition seg_b (p : Z * Z) : list Z := (str "_" ++ dec (fst p) ++ str ".ts") ++ CRLF.
Lemma segment_ab : forall h t d, segment_text h t d = seg_a (h_prefix h) (t, d) ++ BITRATE ++ seg_b (t, d).
Proof. intros. unfold segment_text, seg_a, seg_b. cbn [fst snd]. rewrite <- !app_assoc. reflexivity. Qed.
Fixpoint pieces (pre u : list Z) (pts : list (Z * Z)) (v : list Z) : list (list Z) :=
  match pts with [] => [u ++ v] | p :: r => (u ++ seg_a pre p) :: pieces pre (seg_b p) r v end.
Lemma pieces_ne : forall pre u pts v, pieces pre u pts v <> [].
Proof. intros pre u [|p pts] v; discriminate. Qed.
Lemma join_cons : forall sep t ts, ts <> [] -> join sep (t :: ts) = t ++ sep ++ join sep ts.
Proof. intros sep t [|x ts] H; [contradiction|]. cbn [join flat_map]. rewrite <- app_assoc. reflexivity. Qed.
Lemma join_pieces : forall sep pre pts u v, join sep (pieces pre u pts v) = u ++ flat_map (fun p => seg_a pre p ++ sep ++ seg_b p) pts ++ v.
Proof.
  induction pts as [|p pts IH]; intros u v; cbn [pieces flat_map app].
  - cbn [join flat_map]. apply app_nil_r.
  - rewrite join_cons by apply pieces_ne. rewrite IH. rewrite <- !app_assoc. reflexivity.
Qed.
Lemma not_in_app : forall (c : Z) a b, ~ In c a -> ~ In c b -> ~ In c (a ++ b).
Proof. intros c a b A B X. apply in_app_or in X. tauto. Qed.
Ltac apps := repeat match goal with |- ~ In _ (_ ++ _) => apply not_in_app end.
Ltac notin := let X := fresh in intros X; cbn in X; repeat (destruct X as [X|X]; [discriminate X|]); exact X.
Lemma seg_a_no : forall pre p c, ~ is_digit c -> c <> 13 -> c <> 10 -> ~ In c (str "#EXTINF:.,no-desc_") -> ~ In c pre -> 0 <= snd p -> ~ In c (seg_a pre p).
Proof.
  intros pre p c D C1 C2 S P N. unfold seg_a. 
  assert (S1 : forall x, (forall y, In y x -> In y (str "#EXTINF:.,no-desc_")) -> ~ In c x) by (intros x H X; apply S; apply H; exact X).
  assert (0 <= snd p / 10000000) by (apply Z.div_pos; lia). assert (0 <= snd p mod 1000000) by (apply Z.mod_pos_bound; lia).
  apps; try (apply dec_not; assumption); try exact P; try (apply S1; intros y Hy; cbn in *; tauto).
  intros [X|[X|[]]]; congruence.
Qed.
Lemma seg_b_no : forall p c, ~ is_digit c -> c <> 13 -> c <> 10 -> ~ In c (str "_.ts") -> 0 <= fst p -> ~ In c (seg_b p).
Proof.
  intros p c D C1 C2 S N. unfold seg_b.
  assert (S1 : forall x, (forall y, In y x -> In y (str "_.ts")) -> ~ In c x) by (intros x H X; apply S; apply H; exact X).
  apps; try (apply dec_not; assumption); try (apply S1; intros y Hy; cbn in *; tauto).
  intros [X|[X|[]]]; congruence.
Qed.
Lemma pieces_no36 : forall pre pts u v, ~ In 36 pre -> ~ In 36 u -> ~ In 36 v -> Forall pt_ok pts -> Forall (fun x => ~ In 36 x) (pieces pre u pts v).
Proof.
  intros pre. assert (D : ~ is_digit 36) by (unfold is_digit; lia).
  induction pts as [|p pts IH]; intros u v P U V F; cbn [pieces].
  - constructor; [apply not_in_app; assumption|constructor].
  - pose proof (Forall_inv F) as (T & Du & _). constructor.
    + apply not_in_app; [exact U|]. apply seg_a_no; try assumption; try lia. notin.
    + apply IH; try assumption; [|exact (Forall_inv_tail F)]. apply seg_b_no; try assumption; try lia. notin.
Qed.
Lemma replace_pieces : forall pre u pts v new, ~ In 36 pre -> ~ In 36 u -> ~ In 36 v -> Forall pt_ok pts ->
  replace (u ++ flat_map (fun p => seg_a pre p ++ BITRATE ++ seg_b p) pts ++ v) new BITRATE = Some (u ++ flat_map (fun p => seg_a pre p ++ new ++ seg_b p) pts ++ v).
Proof.
  intros pre u pts v new P U V F. rewrite <- !join_pieces. pose proof (pieces_no36 pre pts u v P U V F) as G.
  destruct (pieces pre u pts v) as [|t ts] eqn:E; [destruct (pieces_ne _ _ _ _ E)|]. apply replace_plain. exact G.
Qed.
Lemma audio_only : forall pre h, h_video h = false -> Forall (fun c => match c with BeginAudio _ | Point _ _ => True | _ => False end) pre ->
  h_video (calls h pre) = false /\ h_body (calls h pre) = h_body h /\ h_prefix (calls h pre) = h_prefix h /\ h_encrypted (calls h pre) = h_encrypted h
  /\ h_key (calls h pre) = h_key h /\ h_named (calls h pre) = h_named h.
Proof.
  induction pre as [|c pre IH]; intros h V F; [repeat split; assumption|].
  change (calls h (c :: pre)) with (calls (do_call h c) pre). pose proof (Forall_inv F) as C. pose proof (Forall_inv_tail F) as F'.
  destruct c; try destruct C; cbn [do_call].
  - apply (IH (mkhls (h_body h) true false (h_prefix h) (h_encrypted h) (h_key h) (h_named h)) eq_refl F').
  - rewrite V. apply IH; assumption.
Qed.
Lemma calls_app : forall a b h, calls h (a ++ b) = calls (calls h a) b.
Proof. intros. apply fold_left_app. Qed.
Definition hdr (enc : bool) (key : list Z) (d : Z) : list (list Z) :=
  [str "#EXTM3U"; str "#EXT-X-VERSION:3"; str "#EXT-X-ALLOW-CACHE:NO"; str "#EXT-X-MEDIA-SEQUENCE:0"; str "#EXT-X-TARGETDURATION:" ++ dec (d / 10000000);
   str "#EXT-X-PROGRAM-DATE-TIME:1970-01-01T00:00:00Z"] ++ (if enc then [str "#EXT-X-KEY:METHOD=AES-128,URI=""" ++ key ++ str """"] else []).
Lemma body_ok : forall named enc key pre name p pts, Forall (fun c => match c with BeginAudio _ | Point _ _ => True | _ => False end) pre ->
  h_body (calls (hls0 named enc key) (pre ++ BeginVideo name :: map (fun p => Point (fst p) (snd p)) (p :: pts) ++ [EndAll]))
  = flat_map (fun l => l ++ CRLF) (hdr enc key (snd p)) ++ flat_map (fun q => seg_a (if named then name else str "video") q ++ BITRATE ++ seg_b q) (p :: pts) ++ str "#EXT-X-ENDLIST" ++ CRLF.
Proof.
  intros named enc key pre name (t & d) pts F. rewrite calls_app.
  destruct (audio_only pre (hls0 named enc key) eq_refl F) as (V & B & P & E & K & N). set (h := calls (hls0 named enc key) pre) in *.
  cbn [h_body h_prefix h_encrypted h_key h_named hls0] in *. cbn [map fst snd].
  change (calls h (BeginVideo name :: (Point t d :: map (fun p => Point (fst p) (snd p)) pts) ++ [EndAll]))
    with (calls (do_call (do_call h (BeginVideo name)) (Point t d)) (map (fun p => Point (fst p) (snd p)) pts ++ [EndAll])).
  rewrite calls_app, calls_points by reflexivity. cbn [calls fold_left do_call with_body h_video h_begin h_body h_prefix h_encrypted h_key h_named].
  unfold pts_text, header_text. cbn [h_body h_prefix h_encrypted h_key h_named fst snd]. rewrite B, P, E, K, N. cbn [app].
  rewrite (flat_map_ext _ (fun q => seg_a (if named then name else str "video") q ++ BITRATE ++ seg_b q)) by (intros (t' & d'); rewrite segment_ab; reflexivity).
  rewrite segment_ab. cbn [h_prefix]. cbn [flat_map]. unfold hdr. destruct enc; cbn [flat_map app]; rewrite <- ?app_assoc; reflexivity.
Qed.
Lemma lines_flat : forall ls r, Forall (fun l => ~ In 13 l) ls -> lines [] (flat_map (fun l => l ++ CRLF) ls ++ r) = ls ++ lines [] r.
Proof.
  induction ls as [|l ls IH]; intros r F; [reflexivity|]. cbn [flat_map]. rewrite <- !app_assoc. rewrite lines_line by exact (Forall_inv F).
  cbn [app]. rewrite IH by exact (Forall_inv_tail F). reflexivity.
Qed.
