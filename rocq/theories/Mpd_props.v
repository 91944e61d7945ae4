(** Properties C27 (segment timeline), C28 (duration), C50 (codec name). *)
From Coq Require Import String ZifyNat.
From Verif Require Import Util Dec_spec Dec_lemmas Str_model Str_proofs Mpd_model Mpd_proofs.
Local Open Scope Z_scope.
Local Ltac Zify.zify_post_hook ::= Z.div_mod_to_equations.

(** Reading the text back by the rules of DASH gives the segments, gaps and overlaps
    included. *)
Theorem C27_timeline : forall pts, Forall pt_ok pts -> exists es, timeline (timeline_text pts) = Some es /\ segments 0 es = pts.
Proof. exact timeline_ok. Qed.
Print Assumptions C27_timeline.
Example C27_nonvacuous : timeline_text [(0, 20); (20, 20); (40, 20); (60, 5); (100, 5); (105, 5); (110, 5)]
  = flat_map (fun s => TAB4 ++ s ++ CRLF) [str "<S d=""20"" r=""2"" />"; str "<S d=""5"" />"; str "<S d=""5"" t=""100"" />"; str "<S d=""5"" r=""1"" />"]
  /\ Forall pt_ok [(0, 20); (20, 20); (40, 20); (60, 5); (100, 5); (105, 5); (110, 5)].
Proof. split; [reflexivity|]. repeat constructor; cbn; lia. Qed.

(** The duration is written as whole seconds, a point and a fraction; the seconds are right. *)
Theorem C28_seconds : forall d, 0 <= d < 2 ^ 64 -> exists ip fp, duration_text d = str "PT" ++ ip ++ str "." ++ fp ++ str "S"
  /\ Forall is_digit ip /\ Forall is_digit fp /\ ip <> [] /\ fp <> [] /\ undec ip = d / 10000000.
Proof.
  intros d H. exists (dec (d / 10000000)), (dec (d mod 1000000)). destruct (dec_ok (d / 10000000) ltac:(lia)) as (A & B & C). destruct (dec_ok (d mod 1000000) ltac:(lia)) as (A2 & B2 & C2).
  split; [reflexivity|]. repeat split; assumption.
Qed.
Print Assumptions C28_seconds.
(** Refuted for the fraction: the number written is the duration only when the duration is a
    whole number of seconds. *)
Theorem C28_fraction_refuted : forall d ip fp, 0 <= d < 2 ^ 64 -> Forall is_digit ip -> Forall is_digit fp ->
  duration_text d = str "PT" ++ ip ++ str "." ++ fp ++ str "S" ->
  (decimal ip fp d 10000000 <-> d mod 10000000 = 0).
Proof.
  intros d ip fp H Hi Hf E. unfold duration_text in E. apply app_inv_head in E.
  assert (Dot : ~ is_digit 46) by (unfold is_digit; lia).
  assert (Q : ip = dec (d / 10000000) /\ fp ++ str "S" = dec (d mod 1000000) ++ str "S").
  { change (str "." ++ fp ++ str "S") with (46 :: fp ++ str "S") in E. change (str "." ++ dec (d mod 1000000) ++ str "S") with (46 :: dec (d mod 1000000) ++ str "S") in E.
    apply (f_equal span_digits) in E. rewrite !span_app in E by (try assumption; apply dec_digits; lia). injection E as E1 E2. split; [symmetry; exact E1|symmetry; exact E2]. }
  destruct Q as (-> & Q). apply app_inv_tail in Q. subst fp. unfold decimal. rewrite undec_dec by lia.
  set (k := zlen (dec (d mod 1000000))). split.
  - intros D. set (y := d mod 10000000).
    assert (M : d mod 1000000 = y mod 1000000) by (subst y; lia). apply wrong_fraction; [subst y; lia|]. rewrite <- M. fold k.
    assert (DD : d = 10000000 * (d / 10000000) + y) by (subst y; lia). rewrite DD in D at 3. 
    set (u := undec (dec (d mod 1000000))) in *. set (P := 10 ^ k) in *. clearbody u P k y. nia.
  - intros D. assert (M : d mod 1000000 = 0) by lia. subst k. rewrite M. change (zlen (dec 0)) with 1. change (undec (dec 0)) with 0. change (10 ^ 1) with 10. lia.
Qed.
Print Assumptions C28_fraction_refuted.
Example C28_nonvacuous : duration_text 15000000 = str "PT1.0S" /\ duration_text 10500000 = str "PT1.500000S" /\ duration_text 20000000 = str "PT2.0S".
Proof. repeat split. Qed.

(** The codec name (RFC 6381) should be the profile, constraint and level bytes of the SPS;
    refuted: profile and level are, the constraints byte is only when it is 0. *)
Theorem C50_codec_refuted : forall hi lo nal profile constraints level rest, bytes [profile; constraints; level] ->
  codec_name (hi :: lo :: nal :: profile :: constraints :: level :: rest) = str "avc1." ++ hex_of profile ++ hex_of (if constraints <? 16 then 0 else 1) ++ hex_of level
  /\ (codec_name (hi :: lo :: nal :: profile :: constraints :: level :: rest) = str "avc1." ++ hex_of profile ++ hex_of constraints ++ hex_of level <-> constraints = 0).
Proof.
  intros hi lo nal p c l rest B. apply bytes_cons in B. destruct B as (P & B). apply bytes_cons in B. destruct B as (C & B). apply bytes_cons in B. destruct B as (L & _).
  assert (K : compatibility c = if c <? 16 then 0 else 1).
  { apply Z.eqb_eq. revert c C. apply (byte_sweep (fun c => compatibility c =? (if c <? 16 then 0 else 1))). vm_compute. reflexivity. }
  assert (CC : is_byte (if c <? 16 then 0 else 1)) by (unfold is_byte; destruct (c <? 16); lia).
  assert (E : codec_name (hi :: lo :: nal :: p :: c :: l :: rest) = str "avc1." ++ hex_of p ++ hex_of (if c <? 16 then 0 else 1) ++ hex_of l).
  { unfold codec_name. cbn [nth]. rewrite K. rewrite !append_hex_eq by (apply bytes_cons; split; [assumption|constructor]). cbn [flat_map]. rewrite !app_nil_r, <- !app_assoc. reflexivity. }
  split; [exact E|]. rewrite E. split.
  - intros Q. apply app_inv_head in Q. apply app_inv_head in Q. apply app_inv_tail in Q.
    revert c C Q K CC E. clear. intros c C Q _ _ _.
    assert (S : forall c, is_byte c -> (negb (eqs (hex_of (if c <? 16 then 0 else 1)) (hex_of c)) || (c =? 0)) = true).
    { apply byte_sweep. vm_compute. reflexivity. }
    pose proof (S c C) as X. rewrite Q in X. replace (eqs (hex_of c) (hex_of c)) with true in X; [cbn [negb orb] in X; lia|].
    unfold hex_of. cbn [eqs]. rewrite !Z.eqb_refl. reflexivity.
  - intros ->. reflexivity.
Qed.
Print Assumptions C50_codec_refuted.
Example C50_nonvacuous : codec_name [0; 20; 0x67; 0x42; 0xC0; 0x1E; 1] = str "avc1.42011E" /\ codec_name [0; 20; 0x67; 0x4D; 0x40; 0x1E; 1] = str "avc1.4D011E".
Proof. split; reflexivity. Qed.
