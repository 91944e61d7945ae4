(** Property C29: the HLS media playlist. *)
From Coq Require Import String ZifyNat.
From Verif Require Import Util Dec_spec Dec_lemmas Str_model Str_proofs Mpd_model Mpd_proofs Hls_model Hls_proofs.
Local Open Scope Z_scope.
Local Ltac Zify.zify_post_hook ::= Z.div_mod_to_equations.

Definition audio_call (c : call) : Prop := match c with BeginAudio _ | Point _ _ => True | _ => False end.
(** Any audio streams, then a video stream: the playlist of a bit rate lists, after the
    header, every point once and in order, each with the name <stream>_<bit rate>_<time>.ts,
    and is closed. *)
Theorem C29_playlist : forall named enc key audio name p pts bit_rate,
  Forall audio_call audio -> plain key -> plain name -> Forall pt_ok (p :: pts) -> 0 <= bit_rate ->
  exists text, bit_rate_body (calls (hls0 named enc key) (audio ++ BeginVideo name :: map (fun p => Point (fst p) (snd p)) (p :: pts) ++ [EndAll])) bit_rate = Some text
  /\ lines [] text =
     [str "#EXTM3U"; str "#EXT-X-VERSION:3"; str "#EXT-X-ALLOW-CACHE:NO"; str "#EXT-X-MEDIA-SEQUENCE:0"; str "#EXT-X-TARGETDURATION:" ++ dec (snd p / 10000000);
      str "#EXT-X-PROGRAM-DATE-TIME:1970-01-01T00:00:00Z"]
     ++ (if enc then [str "#EXT-X-KEY:METHOD=AES-128,URI=""" ++ key ++ str """"] else [])
     ++ flat_map (fun q => [str "#EXTINF:" ++ dec (snd q / 10000000) ++ str "." ++ dec (snd q mod 1000000) ++ str ",no-desc";
                            (if named then name else str "video") ++ str "_" ++ dec bit_rate ++ str "_" ++ dec (fst q) ++ str ".ts"]) (p :: pts)
     ++ [str "#EXT-X-ENDLIST"].
Proof.
  intros named enc key audio name p pts br A K N F B. unfold bit_rate_body. rewrite body_ok by exact A.
  set (pre := if named then name else str "video").
  assert (P : ~ In 13 pre /\ ~ In 36 pre) by (subst pre; destruct named; [exact N|split; notin]).
  assert (D36 : ~ is_digit 36) by (unfold is_digit; lia). assert (D13 : ~ is_digit 13) by (unfold is_digit; lia).
  pose proof (Forall_inv F) as (_ & D0 & _).
  assert (Hd : forall c, c = 13 \/ c = 36 -> Forall (fun l => ~ In c l) (hdr enc key (snd p))).
  { intros c Hc. assert (Dc : ~ is_digit c) by (unfold is_digit; lia). assert (Kc : ~ In c key) by (destruct Hc as [-> | ->]; apply K).
    unfold hdr. apply Forall_app. split.
    - repeat (apply Forall_cons; [|]); try apply Forall_nil; try (destruct Hc as [-> | ->]; notin).
      apply not_in_app; [destruct Hc as [-> | ->]; notin|]. apply dec_not; [lia|exact Dc].
    - destruct enc; constructor; [|constructor]. apps; try exact Kc; destruct Hc as [-> | ->]; notin. }
  assert (Hf : ~ In 36 (flat_map (fun l => l ++ CRLF) (hdr enc key (snd p)))).
  { intros X. apply in_flat_map in X. destruct X as (l & I & X). apply in_app_or in X. destruct X as [X|X].
    - pose proof (Hd 36 (or_intror eq_refl)) as G. rewrite Forall_forall in G. exact (G l I X).
    - revert X. notin. }
  rewrite replace_pieces; try assumption; [|apply P|notin].
  eexists. split; [reflexivity|]. rewrite lines_flat by (apply Hd; left; reflexivity).
  unfold hdr. rewrite <- app_assoc. f_equal. f_equal.
  revert F. generalize (p :: pts). clear - P B D13. intros l. induction l as [|q l IH]; intros F.
  - cbn [flat_map app]. change (str "#EXT-X-ENDLIST" ++ CRLF) with (str "#EXT-X-ENDLIST" ++ CRLF ++ []). rewrite lines_line by notin. reflexivity.
  - pose proof (Forall_inv F) as (T & D & _). cbn [flat_map]. unfold seg_a at 1, seg_b at 1. rewrite <- !app_assoc.
    replace (str "#EXTINF:" ++ dec (snd q / 10000000) ++ str "." ++ dec (snd q mod 1000000) ++ str ",no-desc" ++ CRLF ++ pre ++ str "_" ++ dec br ++ str "_" ++ dec (fst q) ++ str ".ts" ++ CRLF ++ flat_map (fun q0 => seg_a pre q0 ++ dec br ++ seg_b q0) l ++ str "#EXT-X-ENDLIST" ++ CRLF)
      with ((str "#EXTINF:" ++ dec (snd q / 10000000) ++ str "." ++ dec (snd q mod 1000000) ++ str ",no-desc") ++ CRLF ++ (pre ++ str "_" ++ dec br ++ str "_" ++ dec (fst q) ++ str ".ts") ++ CRLF ++ flat_map (fun q0 => seg_a pre q0 ++ dec br ++ seg_b q0) l ++ str "#EXT-X-ENDLIST" ++ CRLF)
      by (rewrite <- !app_assoc; reflexivity).
    rewrite lines_line, lines_line.
    + cbn [app]. f_equal. f_equal. apply IH. exact (Forall_inv_tail F).
    + apps; try (apply dec_not; [lia|exact D13]); try apply P; notin.
    + apps; try (apply dec_not; [lia|exact D13]); notin.
Qed.
Print Assumptions C29_playlist.
Example C29_nonvacuous : bit_rate_body (calls (hls0 true false []) [BeginAudio (str "audio"); Point 0 5; BeginVideo (str "v"); Point 0 20000000; Point 20000000 15000000; EndAll]) 64000
  = Some (str "#EXTM3U" ++ CRLF ++ str "#EXT-X-VERSION:3" ++ CRLF ++ str "#EXT-X-ALLOW-CACHE:NO" ++ CRLF ++ str "#EXT-X-MEDIA-SEQUENCE:0" ++ CRLF
   ++ str "#EXT-X-TARGETDURATION:2" ++ CRLF ++ str "#EXT-X-PROGRAM-DATE-TIME:1970-01-01T00:00:00Z" ++ CRLF
   ++ str "#EXTINF:2.0,no-desc" ++ CRLF ++ str "v_64000_0.ts" ++ CRLF ++ str "#EXTINF:1.0,no-desc" ++ CRLF ++ str "v_64000_20000000.ts" ++ CRLF ++ str "#EXT-X-ENDLIST" ++ CRLF).
Proof. vm_compute. reflexivity. Qed.

(** The target duration written covers all segments (each rounded to a second, as RFC 8216
    asks) exactly when no segment exceeds the whole seconds of the first by half a second. *)
Theorem C29_target : forall named enc key audio name p pts bit_rate,
  Forall audio_call audio -> plain key -> plain name -> Forall pt_ok (p :: pts) -> 0 <= bit_rate ->
  exists text target, bit_rate_body (calls (hls0 named enc key) (audio ++ BeginVideo name :: map (fun p => Point (fst p) (snd p)) (p :: pts) ++ [EndAll])) bit_rate = Some text
  /\ In (str "#EXT-X-TARGETDURATION:" ++ dec target) (lines [] text)
  /\ ((forall q, In q (p :: pts) -> rounded (snd q) <= target) <-> (forall q, In q (p :: pts) -> snd q < snd p / 10000000 * 10000000 + 5000000)).
Proof.
  intros named enc key audio name p pts br A K N F B. destruct (C29_playlist named enc key audio name p pts br A K N F B) as (text & E & L).
  exists text, (snd p / 10000000). split; [exact E|]. split; [rewrite L; do 4 right; left; reflexivity|].
  unfold rounded. split; intros H q I; specialize (H q I); lia.
Qed.
Print Assumptions C29_target.
(** Refuted: a single segment of 1.9 s is announced under a target of 1 s. *)
Theorem C29_target_refuted : exists text, bit_rate_body (calls (hls0 true false []) [BeginVideo (str "v"); Point 0 19000000; EndAll]) 1 = Some text
  /\ In (str "#EXT-X-TARGETDURATION:1") (lines [] text) /\ rounded 19000000 = 2.
Proof. eexists. split; [vm_compute; reflexivity|]. split; [vm_compute; tauto|reflexivity]. Qed.
Print Assumptions C29_target_refuted.
(** The duration of a segment is written as PT-less decimal like the manifest's: right only
    for whole seconds. *)
Theorem C29_extinf_refuted : forall d, 0 <= d -> (decimal (dec (d / 10000000)) (dec (d mod 1000000)) d 10000000 <-> d mod 10000000 = 0).
Proof.
  intros d H. unfold decimal. rewrite (undec_dec (d / 10000000)) by lia. set (k := zlen (dec (d mod 1000000))). split.
  - intros D. set (y := d mod 10000000).
    assert (M : d mod 1000000 = y mod 1000000) by (subst y; lia). apply wrong_fraction; [subst y; lia|]. rewrite <- M. fold k.
    assert (DD : d = 10000000 * (d / 10000000) + y) by (subst y; lia). rewrite DD in D at 3.
    set (u := undec (dec (d mod 1000000))) in *. set (P := 10 ^ k) in *. clearbody u P k y. nia.
  - intros D. assert (M : d mod 1000000 = 0) by lia. subst k. rewrite M. change (zlen (dec 0)) with 1. change (undec (dec 0)) with 0. change (10 ^ 1) with 10. lia.
Qed.
Print Assumptions C29_extinf_refuted.
(** Refuted: with a second video stream its whole list, header included, is put after the
    first's in the same playlist. *)
Theorem C29_two_videos_refuted : forall enc key name1 name2 t1 d1 t2 d2,
  h_body (calls (hls0 true enc key) [BeginVideo name1; Point t1 d1; BeginVideo name2; Point t2 d2; EndAll])
  = h_body (calls (hls0 true enc key) [BeginVideo name1; Point t1 d1]) ++ h_body (calls (hls0 true enc key) [BeginVideo name2; Point t2 d2; EndAll]).
Proof.
  intros. cbn [calls fold_left do_call with_body hls0 h_video h_begin h_body h_prefix h_encrypted h_key h_named app].
  rewrite <- !app_assoc. reflexivity.
Qed.
Print Assumptions C29_two_videos_refuted.
(** Refuted: when an audio stream comes last the list is not closed. *)
Theorem C29_unclosed_refuted : forall named enc key name pts name2,
  calls (hls0 named enc key) (BeginVideo name :: pts ++ [BeginAudio name2; EndAll]) = calls (hls0 named enc key) (BeginVideo name :: pts ++ [BeginAudio name2]).
Proof.
  intros. replace (BeginVideo name :: pts ++ [BeginAudio name2; EndAll]) with ((BeginVideo name :: pts ++ [BeginAudio name2]) ++ [EndAll]) by (cbn [app]; rewrite <- app_assoc; reflexivity).
  rewrite calls_app. replace (BeginVideo name :: pts ++ [BeginAudio name2]) with ((BeginVideo name :: pts) ++ [BeginAudio name2]) by reflexivity. rewrite calls_app. reflexivity.
Qed.
Print Assumptions C29_unclosed_refuted.
