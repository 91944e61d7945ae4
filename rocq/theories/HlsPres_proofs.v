(** Lemmas on the HLS presentation. *)
From Coq Require Import String ZifyNat Permutation.
From Verif Require Import Util Dec_spec Dec_lemmas Str_model Str_proofs Mpd_model Mpd_proofs Points_model Points_proofs Points_proofs2 Hls_model Hls_proofs HlsCrypt_model Pres_model Pres_proofs Pres_proofs2 Pres_proofs3 Pres_proofs4 Pres_proofs5 HlsPres_model.
Local Open Scope Z_scope.

(** * lines *)
Lemma line_end l : forall cur r, ~ In 10 l -> text_lines cur (l ++ 10 :: r) = without_cr (cur ++ l) :: text_lines [] r.
Proof.
  induction l as [|c l IH]; intros cur r N; [cbn [app text_lines]; rewrite app_nil_r; reflexivity|]. cbn [app text_lines]. destruct (Z.eqb_spec c 10) as [->|NE]; [exfalso; apply N; left; reflexivity|].
  rewrite IH by (intros X; apply N; right; exact X). rewrite <- app_assoc. reflexivity.
Qed.
Lemma without_cr_cr l : without_cr (l ++ [13]) = l.
Proof. unfold without_cr. rewrite rev_app_distr. cbn [rev app]. apply rev_involutive. Qed.
Lemma without_cr_plain l : ~ In 13 l -> without_cr l = l.
Proof.
  intros N. unfold without_cr. destruct (rev l) as [|c r] eqn:E; [reflexivity|]. assert (I : In c l) by (apply in_rev; rewrite E; left; reflexivity).
  assert (c <> 13) by congruence. destruct c as [|q|q]; try reflexivity. do 4 (destruct q as [q|q|]; try reflexivity). congruence.
Qed.
Lemma lines_crlf ls r : Forall (fun l => ~ In 10 l) ls -> text_lines [] (flat_map (fun l => l ++ CRLF) ls ++ r) = ls ++ text_lines [] r.
Proof.
  induction 1 as [|l ls N F IH]; [reflexivity|]. cbn [flat_map]. rewrite <- !app_assoc.
  replace (l ++ CRLF ++ flat_map (fun l => l ++ CRLF) ls ++ r) with ((l ++ [13]) ++ 10 :: flat_map (fun l => l ++ CRLF) ls ++ r) by (rewrite <- app_assoc; reflexivity).
  rewrite line_end by (apply not_in_app; [exact N|notin]). cbn [app]. rewrite without_cr_cr, IH. reflexivity.
Qed.
Lemma lines_lf ls r : Forall (fun l => ~ In 10 l /\ ~ In 13 l) ls -> text_lines [] (flat_map (fun l => l ++ [10]) ls ++ r) = ls ++ text_lines [] r.
Proof.
  induction 1 as [|l ls [N M] F IH]; [reflexivity|]. cbn [flat_map]. rewrite <- !app_assoc. cbn [app]. rewrite line_end by exact N. cbn [app]. rewrite without_cr_plain by exact M. rewrite IH. reflexivity.
Qed.
Definition uri_line (l : list Z) : bool := match l with [] => false | c :: _ => negb (c =? 35) end.
Lemma uris_crlf ls : Forall (fun l => ~ In 10 l) ls -> uris (flat_map (fun l => l ++ CRLF) ls) = filter uri_line ls.
Proof. intros F. unfold uris. rewrite <- (app_nil_r (flat_map _ ls)), lines_crlf by exact F. cbn [text_lines]. rewrite app_nil_r. reflexivity. Qed.
Lemma uris_lf ls : Forall (fun l => ~ In 10 l /\ ~ In 13 l) ls -> uris (flat_map (fun l => l ++ [10]) ls) = filter uri_line ls.
Proof. intros F. unfold uris. rewrite <- (app_nil_r (flat_map _ ls)), lines_lf by exact F. cbn [text_lines]. rewrite app_nil_r. reflexivity. Qed.

(** * a media playlist *)
Definition seg_name (rate t : Z) : list Z := str "video_" ++ dec rate ++ str "_" ++ dec t ++ str ".ts".
Definition body_lines (enc : bool) (rate : Z) (p : Z * Z) (pts : list (Z * Z)) : list (list Z) :=
  hdr enc (str "hls3.key") (snd p) ++ flat_map (fun q => [str "#EXTINF:" ++ dec (snd q / 10000000) ++ str "." ++ dec (snd q mod 1000000) ++ str ",no-desc"; seg_name rate (fst q)]) (p :: pts) ++ [str "#EXT-X-ENDLIST"].
Lemma body_text enc A p pts rate : Forall (fun c => match c with BeginAudio _ | Point _ _ => True | _ => False end) A -> Forall pt_ok (p :: pts) -> 0 <= rate ->
  replace (h_body (calls (hls0 true enc (str "hls3.key")) (A ++ BeginVideo (str "video") :: map (fun q => Point (fst q) (snd q)) (p :: pts) ++ [EndAll]))) (dec rate) BITRATE
  = Some (flat_map (fun l => l ++ CRLF) (body_lines enc rate p pts)).
Proof.
  intros FA F B. rewrite body_ok by exact FA. pose proof (Forall_inv F) as (_ & D0 & _). rewrite replace_pieces; [|notin| |notin|exact F].
  - f_equal. unfold body_lines. rewrite !flat_map_app. f_equal. f_equal.
    generalize (p :: pts). intros l. induction l as [|q l IH]; [reflexivity|]. cbn [flat_map app]. rewrite IH. unfold seg_a, seg_b, seg_name. change (str "video_") with (str "video" ++ str "_"). rewrite <- !app_assoc. reflexivity.
  - assert (D36 : ~ is_digit 36) by (unfold is_digit; lia). assert (H : 0 <= snd p / 10000000) by (apply Z.div_pos; lia).
    intros X. apply in_flat_map in X. destruct X as (l & I & X). apply in_app_or in X. destruct X as [X|X]; [|revert X; notin]. revert X. change (~ In 36 l). unfold hdr in I. apply in_app_or in I. destruct I as [I|I].
    + cbn [In] in I. destruct I as [<-|[<-|[<-|[<-|[<-|[<-|[]]]]]]]; try notin. apps; [notin|apply dec_not; assumption].
    + destruct enc; [|destruct I]. destruct I as [<-|[]]. apps; notin.
Qed.
Lemma body_lines_no10 enc rate p pts : Forall pt_ok (p :: pts) -> 0 <= rate -> Forall (fun l => ~ In 10 l) (body_lines enc rate p pts).
Proof.
  intros F B. assert (D : ~ is_digit 10) by (unfold is_digit; lia). pose proof (Forall_inv F) as (_ & D0 & _). assert (H : 0 <= snd p / 10000000) by (apply Z.div_pos; lia).
  apply Forall_forall. intros l I. unfold body_lines in I. apply in_app_or in I. destruct I as [I|I]; [|apply in_app_or in I; destruct I as [I|I]].
  - unfold hdr in I. apply in_app_or in I. destruct I as [I|I].
    + cbn [In] in I. destruct I as [<-|[<-|[<-|[<-|[<-|[<-|[]]]]]]]; try notin. apps; [notin|apply dec_not; assumption].
    + destruct enc; [|destruct I]. destruct I as [<-|[]]. apps; notin.
  - apply in_flat_map in I. destruct I as (q & Q & I). rewrite Forall_forall in F. destruct (F q Q) as (T & Du & _). assert (0 <= snd q / 10000000) by (apply Z.div_pos; lia). assert (0 <= snd q mod 1000000) by (apply Z.mod_pos_bound; lia).
    destruct I as [<-|[<-|[]]]; unfold seg_name; apps; try notin; apply dec_not; try assumption; lia.
  - destruct I as [<-|[]]. notin.
Qed.
Lemma filter_none {A} (f : A -> bool) l : Forall (fun x => f x = false) l -> filter f l = [].
Proof. induction 1 as [|x l E F IH]; [reflexivity|]. cbn [filter]. rewrite E. exact IH. Qed.
Lemma body_uris enc rate p pts : filter uri_line (body_lines enc rate p pts) = map (fun q => seg_name rate (fst q)) (p :: pts).
Proof.
  unfold body_lines. rewrite !filter_app. rewrite (filter_none uri_line (hdr _ _ _)).
  - change (filter uri_line [str "#EXT-X-ENDLIST"]) with (@nil (list Z)). rewrite app_nil_r. cbn [app]. generalize (p :: pts). intros l. induction l as [|q l IH]; [reflexivity|]. cbn [flat_map app map].
    change (seg_name rate (fst q) :: filter uri_line (flat_map (fun q => [str "#EXTINF:" ++ dec (snd q / 10000000) ++ str "." ++ dec (snd q mod 1000000) ++ str ",no-desc"; seg_name rate (fst q)]) l) = seg_name rate (fst q) :: map (fun q => seg_name rate (fst q)) l). f_equal. exact IH.
  - apply Forall_forall. intros l I. unfold hdr in I. apply in_app_or in I. destruct I as [I|I].
    + cbn [In] in I. destruct I as [<-|[<-|[<-|[<-|[<-|[<-|[]]]]]]]; reflexivity.
    + destruct enc; [|destruct I]. destruct I as [<-|[]]. reflexivity.
Qed.

(** * main.m3u8 *)
Definition list_name (rate : Z) : list Z := str "video_" ++ dec rate ++ str ".m3u8".
Definition inf_line (audio : Z) (r : rep) : list Z :=
  str "#EXT-X-STREAM-INF:BANDWIDTH=" ++ dec (r_rate r + audio) ++ str ",RESOLUTION=" ++ dec_signed (r_width r) ++ str "x" ++ dec_signed (r_height r) ++ str ",CODECS=""" ++ codec_name (r_private r) ++ str ",mp4a.40.2""".
Definition rate_ok (audio : Z) (r : rep) : Prop := 0 <= r_rate r /\ r_rate r + audio < 2 ^ 31.
Lemma signed_nonneg x : 0 <= x -> dec_signed x = dec x.
Proof. intros H. unfold dec_signed. destruct (Z.ltb_spec x 0); [lia|reflexivity]. Qed.
Lemma root_videos audio l : forall text rates names, 0 <= audio -> Forall (rate_ok audio) l ->
  fold_left root_video l (mkRoot audio (str "video") text rates names)
  = mkRoot audio (str "video") (text ++ flat_map (fun l => l ++ [10]) (flat_map (fun r => [inf_line audio r; list_name (r_rate r)]) l)) (rates ++ map r_rate l) (rev (map (fun r => (r_rate r, list_name (r_rate r))) l) ++ names).
Proof.
  induction l as [|r l IH]; intros text rates names A F; [cbn [fold_left flat_map map rev app]; rewrite !app_nil_r; reflexivity|]. cbn [fold_left]. destruct (Forall_inv F) as (R1 & R2).
  unfold root_video at 2. cbn [o_audio o_prefix o_text o_rates o_names]. rewrite (int32_ok (r_rate r)) by lia. rewrite (int32_ok (r_rate r + audio)) by lia. rewrite (signed_nonneg (r_rate r)), (signed_nonneg (r_rate r + audio)) by lia.
  rewrite (IH _ _ _ A (Forall_inv_tail F)). cbn [flat_map map rev app]. set (F2 := flat_map (fun l => l ++ [10]) (flat_map _ l)). clearbody F2. f_equal; [|rewrite <- app_assoc; reflexivity|rewrite <- app_assoc; reflexivity].
  unfold inf_line, list_name. change (str "video_") with (str "video" ++ str "_"). change (str ",mp4a.40.2""") with (str "," ++ str "mp4a.40.2" ++ str """"). rewrite <- !app_assoc. cbn [app]. rewrite <- !app_assoc. reflexivity.
Qed.
Lemma root_audios l : forall o, Forall (fun r => 0 <= r_rate r < 2 ^ 31) l -> fold_left root_audio l o = mkRoot (last (map r_rate l) (o_audio o)) (o_prefix o) (o_text o) (o_rates o) (o_names o).
Proof.
  induction l as [|r l IH]; intros o F; [destruct o; reflexivity|]. cbn [fold_left]. rewrite (IH _ (Forall_inv_tail F)). cbn [root_audio o_audio o_prefix o_text o_rates o_names]. rewrite (int32_ok _ (Forall_inv F)). cbn [map].
  f_equal. destruct l as [|x l]; [reflexivity|]. generalize (r_rate r) (o_audio o). intros a b. cbn [map]. revert a b. clear. generalize (r_rate x). induction (map r_rate l) as [|y m IH]; intros z a b; [reflexivity|]. cbn [last]. exact (IH y a b).
Qed.
Lemma last_app_default (a b : list Z) d : last (a ++ b) d = last b (last a d).
Proof.
  revert a d. induction b as [|x b IH] using rev_ind; intros a d; [rewrite app_nil_r; reflexivity|]. rewrite app_assoc, !last_last. reflexivity.
Qed.
Lemma root_audio_strms A : forall o, Forall (fun s => n_audio s = true /\ Forall (fun r => 0 <= r_rate r < 2 ^ 31) (n_reps s)) A ->
  fold_left root_strm A o = mkRoot (last (map r_rate (flat_map n_reps A)) (o_audio o)) (o_prefix o) (o_text o) (o_rates o) (o_names o).
Proof.
  induction A as [|s A IH]; intros o F; [destruct o; reflexivity|]. cbn [fold_left flat_map]. rewrite (IH _ (Forall_inv_tail F)). destruct (Forall_inv F) as (Ea & R). unfold root_strm. rewrite Ea, (root_audios _ _ R). cbn [o_audio o_prefix o_text o_rates o_names].
  rewrite map_app, last_app_default. reflexivity.
Qed.
Lemma root_is A s : Forall (fun s => n_audio s = true /\ Forall (fun r => 0 <= r_rate r < 2 ^ 31) (n_reps s)) A -> n_audio s = false -> n_name s = str "video" ->
  let audio := last (map r_rate (flat_map n_reps A)) 96000 in 0 <= audio -> Forall (rate_ok audio) (n_reps s) ->
  root_of (A ++ [s]) = mkRoot audio (str "video") (flat_map (fun l => l ++ [10]) ([str "#EXTM3U"; str "#EXT-X-VERSION:3"] ++ flat_map (fun r => [inf_line audio r; list_name (r_rate r)]) (n_reps s)))
    (map r_rate (n_reps s)) (rev (map (fun r => (r_rate r, list_name (r_rate r))) (n_reps s))).
Proof.
  intros FA V N audio P F. unfold root_of. rewrite fold_left_app, (root_audio_strms A _ FA). cbn [fold_left root0 o_audio o_prefix o_text o_rates o_names]. fold audio. unfold root_strm. rewrite V. cbn [o_audio o_text o_rates o_names]. rewrite N, (root_videos audio _ _ _ _ P F).
  rewrite app_nil_r, flat_map_app. cbn [app flat_map]. reflexivity.
Qed.
Lemma codec_no c l : bytes l -> ~ (48 <= c <= 57) -> ~ (65 <= c <= 70) -> ~ (97 <= c <= 102) -> ~ In c (str "avc1.") -> ~ In c (codec_name l).
Proof.
  intros B C1 C2 C3 C4. unfold codec_name. rewrite !append_hex_eq by (apply bytes_cons; split; [|constructor]; try (apply nth_byte; exact B); unfold compatibility, is_byte; destruct (_ || _); lia). cbn [flat_map]. rewrite !app_nil_r.
  assert (X : forall b, is_byte b -> ~ In c (hex_of b)).
  { intros b Hb I. assert (Y : forall b, is_byte b -> forallb (fun x => ((48 <=? x) && (x <=? 57)) || ((65 <=? x) && (x <=? 70)) || ((97 <=? x) && (x <=? 102))) (hex_of b) = true) by (apply byte_sweep; vm_compute; reflexivity).
    specialize (Y b Hb). rewrite forallb_forall in Y. specialize (Y c I). lia. }
  apps; try (apply X; try (apply nth_byte; exact B); unfold compatibility, is_byte; destruct (_ || _); lia). exact C4.
Qed.
Lemma signed_no c n : ~ is_digit c -> c <> 45 -> ~ In c (dec_signed n).
Proof. intros D C. unfold dec_signed. destruct (Z.ltb_spec n 0); [|apply dec_not; [assumption|exact D]]. intros [X|X]; [congruence|]. revert X. apply dec_not; [lia|exact D]. Qed.
Lemma main_lines_no audio l : 0 <= audio -> Forall (rate_ok audio) l -> Forall (fun r => bytes (r_private r)) l -> Forall (fun l => ~ In 10 l /\ ~ In 13 l) (flat_map (fun r => [inf_line audio r; list_name (r_rate r)]) l).
Proof.
  intros A F B. apply Forall_forall. intros x I. apply in_flat_map in I. destruct I as (r & R & I). rewrite Forall_forall in F, B. destruct (F r R) as (R1 & R2). pose proof (B r R) as Br.
  assert (X : forall c, c = 10 \/ c = 13 -> ~ In c x).
  { intros c Hc. assert (Dc : ~ is_digit c) by (unfold is_digit; lia). destruct I as [<-|[<-|[]]].
    - unfold inf_line. apps; try (destruct Hc as [-> | ->]; notin); try (apply signed_no; [exact Dc|lia]); try (apply dec_not; [lia|exact Dc]). apply codec_no; try lia; [exact Br|]. destruct Hc as [-> | ->]; notin.
    - unfold list_name. apps; try (destruct Hc as [-> | ->]; notin). apply dec_not; [lia|exact Dc]. }
  split; apply X; [left|right]; reflexivity.
Qed.
Lemma main_uris audio l : filter uri_line (flat_map (fun r => [inf_line audio r; list_name (r_rate r)]) l) = map (fun r => list_name (r_rate r)) l.
Proof.
  induction l as [|r l IH]; [reflexivity|]. cbn [flat_map app map].
  change (list_name (r_rate r) :: filter uri_line (flat_map (fun r => [inf_line audio r; list_name (r_rate r)]) l) = list_name (r_rate r) :: map (fun r => list_name (r_rate r)) l). f_equal. exact IH.
Qed.
