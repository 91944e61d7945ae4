(** Proofs for Ts_model: bit packing, PES headers. *)
From Coq Require Import ZifyNat.
From Verif Require Import Util Bits_spec Bits_lemmas TsTime_model TsTime_proofs Ts_model.
Local Open Scope Z_scope.
Local Ltac Zify.zify_post_hook ::= Z.div_mod_to_equations.

(** * to_bytes *)
Lemma bits8 a b c d e f g h : byte_bits (bits_val [a; b; c; d; e; f; g; h]) = [a; b; c; d; e; f; g; h].
Proof. destruct a, b, c, d, e, f, g, h; reflexivity. Qed.
Lemma bits8_byte a b c d e f g h : is_byte (bits_val [a; b; c; d; e; f; g; h]).
Proof. pose proof (bits_val_range [a; b; c; d; e; f; g; h]) as H. exact H. Qed.

Lemma to_bytes_cons8 x r : length x = 8%nat -> to_bytes (x ++ r) = bits_val x :: to_bytes r.
Proof. intros H. do 8 (destruct x as [|? x]; [discriminate H|]). destruct x; [reflexivity|discriminate H]. Qed.
Lemma split8 (bs : list bool) k : length bs = (8 * S k)%nat -> exists x r, bs = x ++ r /\ length x = 8%nat /\ length r = (8 * k)%nat.
Proof. intros H. exists (firstn 8 bs), (skipn 8 bs). split; [symmetry; apply firstn_skipn|]. rewrite firstn_length, skipn_length. lia. Qed.

Lemma to_bytes_bits k : forall bs, length bs = (8 * k)%nat -> bytes_bits (to_bytes bs) = bs /\ bytes (to_bytes bs) /\ length (to_bytes bs) = k.
Proof.
  induction k as [|k IH]; intros bs H.
  - destruct bs; [|discriminate H]. split; [reflexivity|]. split; [constructor|reflexivity].
  - destruct (split8 bs k H) as (x & r & -> & Hx & Hr). rewrite to_bytes_cons8 by exact Hx. destruct (IH r Hr) as (E1 & E2 & E3).
    assert (Eb : byte_bits (bits_val x) = x /\ is_byte (bits_val x)).
    { do 8 (destruct x as [|? x]; [discriminate Hx|]). destruct x; [|discriminate Hx]. split; [apply bits8|apply bits8_byte]. }
    destruct Eb as [Eb1 Eb2]. split; [|split].
    + change (bytes_bits (bits_val x :: to_bytes r)) with (byte_bits (bits_val x) ++ bytes_bits (to_bytes r)). congruence.
    + constructor; assumption.
    + cbn [length]. congruence.
Qed.
Lemma to_bytes_app k : forall x y, length x = (8 * k)%nat -> to_bytes (x ++ y) = to_bytes x ++ to_bytes y.
Proof.
  induction k as [|k IH]; intros x y H.
  - destruct x; [reflexivity|discriminate H].
  - destruct (split8 x k H) as (a & r & -> & Ha & Hr). rewrite <- app_assoc. rewrite (to_bytes_cons8 a (r ++ y)), (to_bytes_cons8 a r) by exact Ha. cbn [app]. rewrite IH by exact Hr. reflexivity.
Qed.

Definition fbits (fs : list (Z * nat)) : list bool := flat_map (fun f => field_bits (fst f) (snd f)) fs.
Lemma fbits_app a b : fbits (a ++ b) = fbits a ++ fbits b.
Proof. apply flat_map_app. Qed.
Lemma fbits_length fs : length (fbits fs) = total (map snd fs).
Proof.
  induction fs as [|[v n] fs IH]; [reflexivity|]. cbn [fbits flat_map map total fold_right fst snd].
  rewrite app_length, field_bits_length. fold (fbits fs). fold (total (map snd fs)). lia.
Qed.
Lemma pack_bits fs k : total (map snd fs) = (8 * k)%nat -> bytes_bits (pack fs) = fbits fs.
Proof. intros H. apply (to_bytes_bits k). rewrite fbits_length. exact H. Qed.
Lemma pack_bytes fs k : total (map snd fs) = (8 * k)%nat -> bytes (pack fs).
Proof. intros H. apply (to_bytes_bits k). rewrite fbits_length. exact H. Qed.
Lemma pack_length fs k : total (map snd fs) = (8 * k)%nat -> length (pack fs) = k.
Proof. intros H. apply (to_bytes_bits k). rewrite fbits_length. exact H. Qed.

(** * the reader *)
Lemma get_field v n rest : get n (field_bits v n ++ rest) = Some (v mod 2 ^ Z.of_nat n, rest).
Proof.
  unfold get. rewrite app_length, field_bits_length. destruct (Nat.ltb_spec (n + length rest) n); [lia|].
  rewrite firstn_app, skipn_app, field_bits_length, Nat.sub_diag, firstn_O, app_nil_r.
  rewrite firstn_all2, skipn_all2 by (rewrite field_bits_length; lia). rewrite bits_val_field. reflexivity.
Qed.
Lemma bind_get {B} v n fs rest (f : Z -> reader B) :
  bind (get n) f (fbits ((v, n) :: fs) ++ rest) = f (v mod 2 ^ Z.of_nat n) (fbits fs ++ rest).
Proof. unfold bind. cbn [fbits flat_map fst snd]. rewrite <- app_assoc, get_field. reflexivity. Qed.

Definition stamp_of (t : Z) : Z * Z * Z := let b := t / 10000 * 90 in (b / 2 ^ 30 mod 8, b / 2 ^ 15 mod 2 ^ 15, b mod 2 ^ 15).

Lemma bind_assoc {A B C} (p : reader A) (f : A -> reader B) (g : B -> reader C) bs :
  bind (bind p f) g bs = bind p (fun x => bind (f x) g) bs.
Proof. unfold bind. destruct (p bs) as [[x r]|]; reflexivity. Qed.
Lemma bind_ret {A B} (x : A) (f : A -> reader B) bs : bind (ret x) f bs = f x bs.
Proof. reflexivity. Qed.

Lemma get_stamp_ok chk t rest : fits t -> get_stamp (fbits (stamp_fields chk (Some t)) ++ rest) = Some (stamp_of t, rest).
Proof.
  intros [H0 H1]. destruct (ToMpegTime_fields t H0 H1) as (E1 & E2 & E3 & _).
  unfold get_stamp, stamp_fields. rewrite !bind_get. unfold ret, stamp_of.
  change (Z.of_nat 3) with 3. change (Z.of_nat 15) with 15. rewrite E1, E2, E3. reflexivity.
Qed.
Lemma get_escr_ok r mk t rest : fits t -> get_escr (fbits (escr_fields r mk (Some t)) ++ rest)
  = Some (let '(a, b, c) := stamp_of t in (a, b, c, 0), rest).
Proof.
  intros [H0 H1]. destruct (ToMpegTime_fields t H0 H1) as (E1 & E2 & E3 & E4).
  unfold get_escr, escr_fields. rewrite !bind_get. unfold ret, stamp_of.
  change (Z.of_nat 3) with 3. change (Z.of_nat 15) with 15. change (Z.of_nat 9) with 9. rewrite E1, E2, E3, E4. reflexivity.
Qed.
Lemma when_stamp {B} chk t rest (f : option (Z * Z * Z) -> reader B) : ofits t ->
  bind (when (b2z (present t)) get_stamp) f (fbits (stamp_fields chk t) ++ rest) = f (option_map stamp_of t) rest.
Proof.
  intros H. destruct t as [t|]; [|reflexivity]. change (when (b2z (present (Some t))) get_stamp) with (x <- get_stamp ;; ret (Some x)).
  rewrite bind_assoc. unfold bind at 1. rewrite get_stamp_ok by exact H. reflexivity.
Qed.
Lemma when_escr {B} r mk t rest (f : option (Z * Z * Z * Z) -> reader B) : ofits t ->
  bind (when (b2z (present t)) get_escr) f (fbits (escr_fields r mk t) ++ rest)
  = f (option_map (fun t => let '(a, b, c) := stamp_of t in (a, b, c, 0)) t) rest.
Proof.
  intros H. destruct t as [t|]; [|reflexivity]. change (when (b2z (present (Some t))) get_escr) with (x <- get_escr ;; ret (Some x)).
  rewrite bind_assoc. unfold bind at 1. rewrite get_escr_ok by exact H. reflexivity.
Qed.

Lemma hdl_range pts dts escr : 0 <= header_data_length pts dts escr <= 16.
Proof. unfold header_data_length. destruct pts, dts, escr; cbn; lia. Qed.

Definition hdr_fields r mk sid pts dts escr body : list (Z * nat) :=
  [(1, 24%nat); (sid, 8%nat); (packet_length pts dts escr body, 16%nat);
         (2, 2%nat); (0, 2%nat); (0, 1%nat); (0, 1%nat); (0, 1%nat); (0, 1%nat);
         (b2z (present pts), 1%nat); (b2z (present dts), 1%nat); (b2z (present escr), 1%nat);
         (0, 1%nat); (0, 1%nat); (0, 1%nat); (0, 1%nat); (0, 1%nat); (header_data_length pts dts escr, 8%nat)]
        ++ stamp_fields (2 + b2z (present dts)) pts ++ stamp_fields 1 dts ++ escr_fields r mk escr.
Lemma hdr_total r mk sid pts dts escr body :
  total (map snd (hdr_fields r mk sid pts dts escr body)) = (8 * Z.to_nat (9 + header_data_length pts dts escr))%nat.
Proof. unfold hdr_fields. destruct pts, dts, escr; reflexivity. Qed.

Lemma hdr_length r mk sid pts dts escr body : zlen (pes_header r mk sid pts dts escr body) = 9 + header_data_length pts dts escr.
Proof. unfold zlen. change (pes_header r mk sid pts dts escr body) with (pack (hdr_fields r mk sid pts dts escr body)). rewrite (pack_length _ _ (hdr_total r mk sid pts dts escr body)). pose proof (hdl_range pts dts escr). lia. Qed.
Lemma hdr_bytes r mk sid pts dts escr body : bytes (pes_header r mk sid pts dts escr body).
Proof. apply (pack_bytes _ _ (hdr_total r mk sid pts dts escr body)). Qed.

Definition read_back sid pts dts escr body : pes :=
  mkpes (sid mod 256) (packet_length pts dts escr body mod 2 ^ 16) (header_data_length pts dts escr)
    (option_map stamp_of pts) (option_map stamp_of dts) (option_map (fun t => let '(a, b, c) := stamp_of t in (a, b, c, 0)) escr).

Lemma get_others {B} v fs rest (f : Z -> reader B) :
  bind (get 5) f (fbits ((0, 1%nat) :: (0, 1%nat) :: (0, 1%nat) :: (0, 1%nat) :: (0, 1%nat) :: (v, 8%nat) :: fs) ++ rest) = f 0 (fbits ((v, 8%nat) :: fs) ++ rest).
Proof. reflexivity. Qed.

Lemma get_pes_header r mk sid pts dts escr body rest : ofits pts -> ofits dts -> ofits escr ->
  get_pes (bytes_bits (pes_header r mk sid pts dts escr body) ++ rest) = Some (read_back sid pts dts escr body, rest).
Proof.
  intros Hp Hd He. change (pes_header r mk sid pts dts escr body) with (pack (hdr_fields r mk sid pts dts escr body)). rewrite (pack_bits _ _ (hdr_total r mk sid pts dts escr body)).
  unfold get_pes, hdr_fields. cbn [app]. rewrite !bind_get.
  rewrite get_others, bind_get.
  change (negb (0 =? 0)) with false. cbn [negb].
  assert (B : forall t : option Z, b2z (present t) mod 2 ^ Z.of_nat 1 = b2z (present t)) by (intros [?|]; reflexivity).
  rewrite !B. pose proof (hdl_range pts dts escr) as HR.
  rewrite (Z.mod_small (header_data_length pts dts escr)) by (change (Z.of_nat 8) with 8; lia).
  rewrite !fbits_app, <- !app_assoc. rewrite when_stamp by exact Hp. rewrite when_stamp by exact Hd. rewrite when_escr by exact He.
  change (5 * b2z (present pts) + 5 * b2z (present dts) + 6 * b2z (present escr)) with (header_data_length pts dts escr).
  rewrite Z.ltb_irrefl, Z.sub_diag. change (Z.to_nat 0) with 0%nat. cbn [skip]. rewrite bind_ret. unfold ret, read_back. change (2 ^ Z.of_nat 8) with 256. change (Z.of_nat 16) with 16. reflexivity.
Qed.

(** the time a stamp stands for *)
Lemma stamp_time_of t : 0 <= t -> stamp_time (stamp_of t) = t / 10000 * 90 mod 2 ^ 33 * 1000 / 9.
Proof.
  intros H. unfold stamp_time, stamp_of. assert (0 <= t / 10000) by (apply Z.div_pos; lia).
  rewrite Time_conv by (try apply Z.mod_pos_bound; lia). rewrite fields_base by lia. rewrite Z.add_0_r.
  rewrite conv_base by (apply Z.mod_pos_bound; lia). f_equal. ring.
Qed.
Lemma escr_time_of t : 0 <= t -> escr_time (let '(a, b, c) := stamp_of t in (a, b, c, 0)) = t / 10000 * 90 mod 2 ^ 33 * 1000 / 9.
Proof. intros H. rewrite <- stamp_time_of by exact H. unfold escr_time, stamp_time. destruct (stamp_of t) as [[a b] c]. reflexivity. Qed.
Lemma no_wrap t : 0 <= t -> t / 10000 * 90 < 2 ^ 33 -> t / 10000 * 90 mod 2 ^ 33 * 1000 / 9 = t / 10000 * 10000.
Proof. intros H0 H. assert (0 <= t / 10000) by (apply Z.div_pos; lia). rewrite Z.mod_small by lia. replace (t / 10000 * 90 * 1000) with (t / 10000 * 10000 * 9) by ring. apply Z.div_mul. lia. Qed.
