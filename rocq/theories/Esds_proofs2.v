(** Proofs about the esds box, continued: the descriptors, and the box written. *)
From Verif Require Import Util Bits_spec Bits_lemmas Ts_model Es_model Bitstream_model Ts_proofs Sps_model Sps_proofs Sps_proofs2 Esds_model Esds_proofs.
From Coq Require Import ZifyNat.
Local Open Scope Z_scope.
Local Ltac Zify.zify_post_hook ::= Z.div_mod_to_equations.

(** a byte made of several fields *)
Lemma rd_split {A} (p : getter A) b bs v : byte_bits b = bs -> Rd p bs v -> RB p [b] v.
Proof. intros E H. apply rb_rd. rewrite bytes_bits_single, E. exact H. Qed.
Lemma desc_length tag k l : length (desc tag k l) = (1 + k + length l)%nat.
Proof. unfold desc. cbn [length]. rewrite app_length, size_groups_length. lia. Qed.
Lemma flags_byte (st : Z) (up : bool) : is_u 6 st -> byte_bits (4 * st + 2 * (if up then 1 else 0) + 1) = field_bits st 6 ++ [up] ++ [true].
Proof.
  intro U. unfold is_u in U. change (2 ^ Z.of_nat 6) with 64 in U. unfold byte_bits. change 8%nat with (6 + 2)%nat. rewrite field_app. change (2 ^ Z.of_nat 2) with 4.
  replace ((4 * st + 2 * (if up then 1 else 0) + 1) / 4) with st by (destruct up; lia). f_equal.
  rewrite field_low. change (2 ^ Z.of_nat 2) with 4. replace ((4 * st + _ + 1) mod 4) with (2 * (if up then 1 else 0) + 1) by (destruct up; lia). destruct up; reflexivity.
Qed.
Lemma dcd_ok x k4 k5 t r : (1 <= k4 <= 4)%nat -> size_ok k5 (length (e_info x)) -> Z.of_nat (length (dcd_body k5 x)) < 2 ^ (7 * Z.of_nat k4) ->
  is_byte (e_type x) -> is_u 6 (e_stream x) -> is_u 24 (e_buffer x) -> is_u 32 (e_max x) -> is_u 32 (e_avg x) -> bytes (e_info x) -> is_byte t -> t <> 5 ->
  get_dcd (bytes_bits (desc 4 k4 (dcd_body k5 x) ++ t :: r))
  = Ok (mkDcd (e_type x) (e_stream x) (if e_up x then 1 else 0) (e_buffer x) (e_max x) (e_avg x) [e_info x], bytes_bits (t :: r)).
Proof.
  intros K4 K5 L T ST BU MX AV I TB T5. unfold get_dcd, desc. change (4 :: ?a ++ ?b) with ((4 :: a) ++ b). rewrite <- app_assoc.
  rewrite (rb_go _ _ _ _ _ (head_ok 4 k4 _ ltac:(unfold is_byte; lia) K4 (conj (Zle_0_nat _) L))). unfold dcd_body. change ([e_type x; ?a]) with ([e_type x] ++ [a]). rewrite <- !app_assoc.
  rewrite (rb_go _ _ _ _ _ (byte_read _ T)).
  rewrite bytes_bits_app, bytes_bits_single, flags_byte by exact ST. rewrite <- !app_assoc.
  unfold gbind at 1. rewrite (rd_getb 6 _ ST). cbn [bindo fst snd].
  unfold gbind at 1. replace [e_up x] with (flag (if e_up x then 1 else 0)) by (destruct (e_up x); reflexivity). rewrite rd_flag by (destruct (e_up x); [right|left]; reflexivity). cbn [bindo fst snd].
  unfold gbind at 1. change [true] with (flag 1). rewrite rd_flag by (right; reflexivity). cbn [bindo fst snd].
  rewrite (rb_go _ _ _ _ _ (big_read 3 _ BU)), (rb_go _ _ _ _ _ (big_read 4 _ MX)), (rb_go _ _ _ _ _ (big_read 4 _ AV)).
  set (s := bytes_bits _). assert (F : exists n, S (length s) = S (S n)).
  { unfold s. rewrite bytes_bits_length, app_length, desc_length. exists (8 * (1 + k5 + length (e_info x) + length (t :: r)) - 1)%nat. lia. }
  destruct F as [n ->]. cbn [get_infos]. unfold s.
  unfold gbind at 1. unfold desc at 1. cbn [app]. rewrite peek8_ok by (unfold is_byte; lia). cbn [bindo fst snd]. change (5 =? 5) with true. cbv iota.
  change (5 :: (size_groups k5 (Z.of_nat (length (e_info x))) ++ e_info x) ++ t :: r) with (desc 5 k5 (e_info x) ++ t :: r).
  rewrite (rb_go _ _ _ _ _ (ext_ok 5 k5 _ ltac:(unfold is_byte; lia) ltac:(lia) K5 I)).
  unfold gbind. cbn [get_infos]. unfold gbind. rewrite peek8_ok by exact TB. cbn [bindo fst snd]. destruct (Z.eqb_spec t 5); [contradiction|]. reflexivity.
Qed.
Lemma slc_ok k v : (1 <= k <= 4)%nat -> v = 1 \/ v = 2 -> RB get_slc (desc 6 k [v]) v.
Proof.
  intros K V. unfold get_slc, desc. change (6 :: ?a ++ ?b) with ((6 :: a) ++ b).
  eapply rb_bind; [apply head_ok; [unfold is_byte; lia|exact K|]|].
  { cbn [length]. change (Z.of_nat 1) with (2 ^ 0). split; [lia|]. apply Z.pow_lt_mono_r; lia. }
  eapply rb_bind0; [apply byte_read; unfold is_byte; lia|]. destruct (Z.eqb_spec v 0); [lia|]. apply rb_ret.
Qed.
Lemma next_no {A} tag (p : getter A) l : bytes l -> (forall t r, l = t :: r -> t <> tag) -> next_is tag p (bytes_bits l) = Ok (None, bytes_bits l).
Proof.
  intros B H. destruct l as [|t r]; [reflexivity|]. unfold next_is, unless_end. destruct (bytes_bits (t :: r)) eqn:E; [now apply bits_cons in E|]. rewrite <- E.
  unfold gbind. rewrite peek8_ok by (inversion B; assumption). cbn [bindo fst snd]. destruct (Z.eqb_spec t tag); [|reflexivity]. exfalso. eapply H; [reflexivity|assumption].
Qed.
Lemma next_yes {A} tag (p : getter A) l v s : is_byte tag -> p (bytes_bits (tag :: l)) = Ok (v, s) -> next_is tag p (bytes_bits (tag :: l)) = Ok (Some v, s).
Proof.
  intros B H. unfold next_is, unless_end. destruct (bytes_bits (tag :: l)) eqn:E; [now apply bits_cons in E|]. rewrite <- E in *.
  unfold gbind. rewrite peek8_ok by assumption. cbn [bindo fst snd]. rewrite Z.eqb_refl, H. reflexivity.
Qed.
Lemma flags3 (a b c : Z) pr : is_flag a -> is_flag b -> is_flag c -> is_u 5 pr -> byte_bits (128 * a + 64 * b + 32 * c + pr) = flag a ++ flag b ++ flag c ++ field_bits pr 5.
Proof.
  intros A B C U. unfold is_u in U. change (2 ^ Z.of_nat 5) with 32 in U. unfold byte_bits. change 8%nat with (3 + 5)%nat. rewrite field_app. change (2 ^ Z.of_nat 5) with 32. rewrite app_assoc, app_assoc.
  unfold is_flag in *. replace ((128 * a + 64 * b + 32 * c + pr) / 32) with (4 * a + 2 * b + c) by lia. f_equal.
  - destruct A as [-> | ->], B as [-> | ->], C as [-> | ->]; reflexivity.
  - rewrite field_low. change (2 ^ Z.of_nat 5) with 32. f_equal. lia.
Qed.
Lemma some_flag {A} (o : option A) : is_flag (some o). Proof. destruct o; [right|left]; reflexivity. Qed.
Lemma rb_opt (o : option Z) : given (is_u 16) o -> RB (if some o =? 0 then gret 0 else getb 16) (opt_bytes (big 2) o) (match o with Some v => v | None => 0 end).
Proof. destruct o as [v|]; intro G; [apply (big_read 2), G|apply rb_ret]. Qed.
Lemma rb_url (o : option (list Z)) : given (fun u => bytes u /\ Z.of_nat (length u) < 256) o ->
  RB (if some o =? 0 then gret [] else let* n := getb 8 in rep (Z.to_nat n) (getb 8)) (opt_bytes (fun u => Z.of_nat (length u) :: u) o) (match o with Some v => v | None => [] end).
Proof.
  destruct o as [v|]; intro G; [|apply rb_ret]. destruct G as [B L]. cbn [some Z.eqb opt_bytes]. change (?a :: v) with ([a] ++ v).
  eapply rb_bind; [apply byte_read; unfold is_byte; lia|]. rewrite Nat2Z.id. apply rb_rd, rd_bytes, B.
Qed.
Lemma exts_no t r : is_byte t -> t < 0x80 -> get_exts (S (length (bytes_bits (t :: r)))) (bytes_bits (t :: r)) = Ok (tt, bytes_bits (t :: r)).
Proof.
  intros T L. cbn [get_exts]. unfold gbind. rewrite peek8_ok by exact T. cbn [bindo fst snd].
  assert ((0x80 <=? t) = false) as -> by lia. assert ((0xD0 <=? t) = false) as -> by lia. reflexivity.
Qed.
Definition dcd_of (x : es) : dcd := mkDcd (e_type x) (e_stream x) (if e_up x then 1 else 0) (e_buffer x) (e_max x) (e_avg x) [e_info x].
Lemma gb_ok {A B} (p : getter A) (f : A -> getter B) s v s' : p s = Ok (v, s') -> gbind p f s = f v s'.
Proof. intro E. unfold gbind. rewrite E. reflexivity. Qed.
Theorem es_read x r : es_ok x -> bytes r -> (forall t l, e_more x ++ r = t :: l -> ~ In t [0x12; 0x26; 0x0C]) ->
  get_es (bytes_bits (es_bytes x ++ r)) = Ok ((Some (dcd_of x), Some (e_sl x)), bytes_bits (e_more x ++ r)).
Proof.
  intros (KS & I & DE & UR & OC & PR & TY & ST & BU & MX & AV & IB & SL & MB) RB0 NM. unfold es_bytes. destruct (e_sizes x) as [[[k3 k4] k5] k6].
  destruct KS as (K3 & K4 & K5 & K6). unfold get_es. unfold desc at 1. change (3 :: ?a ++ ?b) with ((3 :: a) ++ b). rewrite <- app_assoc.
  rewrite (rb_go _ _ _ _ _ (head_ok 3 k3 _ ltac:(unfold is_byte; lia) (proj1 K3) (conj (Zle_0_nat _) (proj2 K3)))).
  unfold es_body. rewrite <- !app_assoc. rewrite (rb_go _ _ _ _ _ (big_read 2 _ I)).
  rewrite bytes_bits_app, bytes_bits_single, flags3 by (try apply some_flag; exact PR). rewrite <- !app_assoc.
  rewrite (gb_ok _ _ _ _ _ (rd_flag _ (some_flag (e_depends x)) _)).
  rewrite (gb_ok _ _ _ _ _ (rd_flag _ (some_flag (e_url x)) _)).
  rewrite (gb_ok _ _ _ _ _ (rd_flag _ (some_flag (e_ocr x)) _)).
  rewrite (gb_ok _ _ _ _ _ (rd_getb 5 _ PR _)).
  rewrite (rb_go _ _ _ _ _ (rb_opt _ DE)), (rb_go _ _ _ _ _ (rb_url _ UR)), (rb_go _ _ _ _ _ (rb_opt _ OC)).
  set (tail := desc 6 k6 [e_sl x] ++ e_more x ++ r).
  assert (E4 : forall l, exists q, desc 4 k4 (dcd_body k5 x) ++ l = 4 :: q) by (intro; eexists; reflexivity).
  destruct (E4 tail) as [q Q].
  rewrite (gb_ok _ _ (bytes_bits (desc 4 k4 (dcd_body k5 x) ++ tail)) tt (bytes_bits (desc 4 k4 (dcd_body k5 x) ++ tail))) by (rewrite Q; apply exts_no; [unfold is_byte|]; lia).
  assert (BT : bytes tail).
  { unfold tail, desc. apply bytes_app; split; [|apply bytes_app; split; assumption]. constructor; [unfold is_byte; lia|]. apply bytes_app; split; [apply size_groups_bytes|]. constructor; [unfold is_byte; lia|constructor]. }
  assert (Q4 : forall A (p : getter A), next_is 0x43 p (bytes_bits (desc 4 k4 (dcd_body k5 x) ++ tail)) = Ok (None, bytes_bits (desc 4 k4 (dcd_body k5 x) ++ tail))).
  { intros. rewrite Q. unfold next_is, unless_end. destruct (bytes_bits (4 :: q)) eqn:E; [now apply bits_cons in E|]. rewrite <- E. unfold gbind. rewrite peek8_ok by (unfold is_byte; lia). reflexivity. }
  rewrite (gb_ok _ _ _ _ _ (Q4 _ _)).
  pose proof (dcd_ok x k4 k5 6 ((size_groups k6 1 ++ [e_sl x]) ++ e_more x ++ r) (proj1 K4) K5 (proj2 K4) TY ST BU MX AV IB ltac:(unfold is_byte; lia) ltac:(lia)) as D.
  change (6 :: (size_groups k6 1 ++ [e_sl x]) ++ e_more x ++ r) with tail in D. fold (dcd_of x) in D. rewrite Q in D |- *.
  rewrite (gb_ok _ _ _ _ _ (next_yes 4 _ _ _ _ ltac:(unfold is_byte; lia) D)).
  pose proof (slc_ok k6 (e_sl x) (proj1 K6) SL (e_more x ++ r)) as S6. fold tail in S6.
  assert (T6 : exists q6, tail = 6 :: q6) by (eexists; reflexivity). destruct T6 as [q6 T6]. rewrite T6 in S6 |- *.
  rewrite (gb_ok _ _ _ _ _ (next_yes 6 _ _ _ _ ltac:(unfold is_byte; lia) S6)).
  assert (BM : bytes (e_more x ++ r)) by (apply bytes_app; split; assumption).
  rewrite (gb_ok _ _ _ _ _ (next_no 0x12 _ _ BM (fun t l E H => NM t l E ltac:(rewrite H; left; reflexivity)))).
  rewrite (gb_ok _ _ _ _ _ (next_no 0x26 _ _ BM (fun t l E H => NM t l E ltac:(rewrite H; right; left; reflexivity)))).
  rewrite (gb_ok _ _ _ _ _ (next_no 0x0C _ _ BM (fun t l E H => NM t l E ltac:(rewrite H; right; right; left; reflexivity)))).
  reflexivity.
Qed.

(** AudioSpecificConfig *)
Lemma skipn_any n (s : list bool) : exists q, skipb n s = Ok (tt, q). Proof. eexists. reflexivity. Qed.
Lemma nth_of {A} (l : list A) n d v : nth_error l n = Some v -> nth n l d = v. Proof. apply nth_error_nth. Qed.
Lemma config_read g r f c : config_ok g -> frequency (g_freq g) = Some f -> speakers (g_chan g) = Some c ->
  exists q, get_aac (config_syntax g ++ r) = Ok (mkAac (g_object g) f c, q).
Proof.
  intros (O & F & C & D) FE CE. unfold get_aac, config_syntax. rewrite <- !app_assoc.
  rewrite (gb_ok _ _ _ _ _ (rd_getb 5 (g_object g) ltac:(unfold is_u; change (2 ^ Z.of_nat 5) with 32; lia) _)).
  destruct (Z.eqb_spec (g_object g) 31) as [E|_]; [lia|]. unfold gbind at 1, gret at 1. cbn [bindo fst snd].
  rewrite (gb_ok _ _ _ _ _ (rd_getb 4 (g_freq g) ltac:(unfold is_u; change (2 ^ Z.of_nat 4) with 16; lia) _)).
  assert (EC : field_bits (g_chan g) 4 = flag 0 ++ field_bits (g_chan g) 3).
  { change 4%nat with (1 + 3)%nat. rewrite field_app. change (2 ^ Z.of_nat 3) with 8. rewrite (Z.div_small (g_chan g) 8) by lia. reflexivity. }
  rewrite EC, <- app_assoc. rewrite (gb_ok _ _ _ _ _ (rd_flag 0 ltac:(left; reflexivity) _)).
  rewrite (gb_ok _ _ _ _ _ (rd_getb 3 (g_chan g) ltac:(unfold is_u; change (2 ^ Z.of_nat 3) with 8; lia) _)).
  unfold frequency in FE. unfold speakers in CE. rewrite (nth_of rates _ 0 _ FE), (nth_of channels _ 0 _ CE).
  destruct ((g_object g =? 1) || (g_object g =? 2)).
  - cbn [app]. change (g_frame g :: ?l) with ([g_frame g] ++ l). replace [g_frame g] with (flag (if g_frame g then 1 else 0)) by (destruct (g_frame g); reflexivity).
    rewrite gbind_assoc. rewrite (gb_ok _ _ _ _ _ (rd_flag (if g_frame g then 1 else 0) ltac:(destruct (g_frame g); [right|left]; reflexivity) _)).
    destruct (g_frame g); cbn [Z.eqb]; [eexists; reflexivity|]. destruct (g_core g) as [d|].
    + rewrite gbind_assoc. cbn [app]. change (true :: ?l) with (flag 1 ++ l). rewrite (gb_ok _ _ _ _ _ (rd_flag 1 ltac:(right; reflexivity) _)). cbn [Z.eqb].
      rewrite gbind_assoc, <- app_assoc. rewrite (gb_ok _ _ _ _ _ (rd_getb 14 _ D _)). rewrite gbind_assoc. cbn [app].
      change (g_ext g :: ?l) with ([g_ext g] ++ l). replace [g_ext g] with (flag (if g_ext g then 1 else 0)) by (destruct (g_ext g); reflexivity).
      rewrite (gb_ok _ _ _ _ _ (rd_flag (if g_ext g then 1 else 0) ltac:(destruct (g_ext g); [right|left]; reflexivity) _)). eexists. reflexivity.
    + rewrite gbind_assoc. cbn [app]. change (false :: ?l) with (flag 0 ++ l). rewrite (gb_ok _ _ _ _ _ (rd_flag 0 ltac:(left; reflexivity) _)). cbn [Z.eqb].
      rewrite gbind_assoc. unfold gbind at 1, gret at 1. cbn [bindo fst snd]. rewrite gbind_assoc.
      change (g_ext g :: ?l) with ([g_ext g] ++ l). replace [g_ext g] with (flag (if g_ext g then 1 else 0)) by (destruct (g_ext g); reflexivity).
      rewrite (gb_ok _ _ _ _ _ (rd_flag (if g_ext g then 1 else 0) ltac:(destruct (g_ext g); [right|left]; reflexivity) _)). eexists. reflexivity.
  - unfold gbind at 1, skipb. cbn [bindo fst snd]. eexists. reflexivity.
Qed.

(** the box *)
Lemma config_info g l : bytes_bits l = config_syntax g -> l <> [].
Proof. intros E ->. apply (f_equal (@length bool)) in E. unfold config_syntax in E. rewrite !app_length, !field_bits_length in E. cbn [bytes_bits flat_map length] in E. lia. Qed.
Theorem audio_read x g f c after : es_ok x -> bytes after -> (forall t l, e_more x ++ after = t :: l -> ~ In t [0x12; 0x26; 0x0C]) ->
  config_ok g -> bytes_bits (e_info x) = config_syntax g -> frequency (g_freq g) = Some f -> speakers (g_chan g) = Some c ->
  get_audio (esds_bytes (es_bytes x) ++ after) = Ok (mkAac (g_object g) f c).
Proof.
  intros XO BA NM G E F C. unfold get_audio, esds_bytes. rewrite <- !app_assoc.
  assert (L : Z.of_nat (length (es_bytes x)) < 2 ^ 29).
  { destruct XO as (KS & _). unfold es_bytes. destruct (e_sizes x) as [[[k3 k4] k5] k6]. destruct KS as ([K L] & _). rewrite desc_length. pose proof (pow7 k3 K). lia. }
  rewrite (rb_go (getb 32) _ _ _ _ (big_read 4 (12 + Z.of_nat (length (es_bytes x))) ltac:(unfold is_u; change (2 ^ Z.of_nat (8 * 4)) with (8 * 2 ^ 29); lia))).
  change [101; 115; 100; 115] with (big 4 box_esds). rewrite (rb_go (getb 32) _ _ _ _ (big_read 4 box_esds ltac:(split; reflexivity || discriminate))).
  rewrite bytes_bits_app. unfold gbind at 1, skipb at 1. cbn [bindo fst snd]. change (skipn 32 (bytes_bits [0; 0; 0; 0] ++ ?l)) with l.
  rewrite es_read by assumption. cbn [bindo fst snd]. unfold dcd_of. cbn [d_info rev app].
  pose proof (config_info g _ E) as NE. destruct (e_info x) as [|i0 i] eqn:EI; [congruence|]. rewrite E.
  destruct (config_read g [] f c G F C) as [q Q]. rewrite app_nil_r in Q. rewrite Q. reflexivity.
Qed.

Lemma pack_big n v : pack [(v, (8 * n)%nat)] = big n v.
Proof.
  apply bytes_bits_inj; [apply (pack_bytes _ n); cbn; lia|apply big_bytes|]. rewrite (pack_bits _ n) by (cbn; lia). rewrite big_bits. unfold fbits. cbn [flat_map fst snd]. apply app_nil_r.
Qed.
Lemma put_head_size tag len : is_byte tag -> 0 <= len -> put_head tag len = tag :: size_groups 4 len.
Proof.
  intros T L. unfold put_head. rewrite !Z.shiftr_div_pow2 by lia. rewrite Z.mod_small by exact T. cbn [size_groups Nat.eqb].
  change (7 * Z.of_nat 3) with 21. change (7 * Z.of_nat 2) with 14. change (7 * Z.of_nat 1) with 7. change (7 * Z.of_nat 0) with 0.
  change (2 ^ 0) with 1. rewrite Z.div_1_r. reflexivity.
Qed.
Lemma pack_dcd o st bu mx av : is_byte o -> is_u 6 st ->
  pack [(o, 8%nat); (st, 6%nat); (0, 1%nat); (1, 1%nat); (bu, 24%nat); (mx, 32%nat); (av, 32%nat)] = [o; 4 * st + 2 * 0 + 1] ++ big 3 bu ++ big 4 mx ++ big 4 av.
Proof.
  intros O S6. apply bytes_bits_inj.
  - apply (pack_bytes _ 13). reflexivity.
  - unfold is_u in S6. change (2 ^ Z.of_nat 6) with 64 in S6. apply bytes_app; split; [constructor; [exact O|constructor; [unfold is_byte; lia|constructor]]|].
    apply bytes_app; split; [apply big_bytes|]. apply bytes_app; split; apply big_bytes.
  - rewrite (pack_bits _ 13) by reflexivity. rewrite !bytes_bits_app, !big_bits. change [o; ?b] with ([o] ++ [b]). rewrite bytes_bits_app, !bytes_bits_single.
    rewrite (flags_byte st false S6). unfold fbits, byte_bits. cbn [flat_map fst snd]. rewrite <- !app_assoc, app_nil_r. reflexivity.
Qed.
Lemma rate_code fi f : 0 <= fi -> frequency fi = Some f -> code_of f rates = Some fi /\ fi < 13.
Proof.
  intros P E. unfold frequency in E. assert (L : (Z.to_nat fi < 13)%nat) by (apply (nth_error_Some rates (Z.to_nat fi)); unfold rates; rewrite E; discriminate).
  split; [|lia]. assert (H : forall n, (n < 13)%nat -> forall f, nth_error rates n = Some f -> code_of f rates = Some (Z.of_nat n)).
  { intros n N. do 13 (destruct n as [|n]; [intros ? [= <-]; reflexivity|]). lia. }
  rewrite (H _ L f E). f_equal. lia.
Qed.
Lemma chan_code ci c : 0 <= ci -> speakers ci = Some c -> code_of c channels = Some ci /\ ci < 8.
Proof.
  intros P E. unfold speakers in E. assert (L : (Z.to_nat ci < 8)%nat) by (apply (nth_error_Some channels (Z.to_nat ci)); unfold channels; rewrite E; discriminate).
  split; [|lia]. assert (H : forall n, (n < 8)%nat -> forall f, nth_error channels n = Some f -> code_of f channels = Some (Z.of_nat n)).
  { intros n N. do 8 (destruct n as [|n]; [intros ? [= <-]; reflexivity|]). lia. }
  rewrite (H _ L c E). f_equal. lia.
Qed.
Definition plain (o fi ci : Z) : config := mkConfig o fi ci false None false [].
Lemma put_aac_ok o fi ci f c : 0 <= o < 31 -> 0 <= fi -> frequency fi = Some f -> 0 <= ci -> speakers ci = Some c ->
  exists info, put_aac o f c = Some info /\ bytes info /\ length info = 2%nat /\ bytes_bits info = config_syntax (plain o fi ci).
Proof.
  intros O FP FE CP CE. destruct (rate_code fi f FP FE) as [R RL]. destruct (chan_code ci c CP CE) as [Q QL]. unfold put_aac. rewrite R, Q.
  destruct (Z.eqb_spec o 31); [lia|]. cbn [app]. eexists. split; [reflexivity|]. split; [apply (pack_bytes _ 2); reflexivity|]. split; [apply (pack_length _ 2); reflexivity|].
  rewrite (pack_bits _ 2) by reflexivity. unfold fbits, config_syntax, plain. cbn [flat_map fst snd g_object g_freq g_chan g_frame g_core g_ext g_more].
  assert (EC : field_bits ci 4 = field_bits 0 1 ++ field_bits ci 3).
  { change 4%nat with (1 + 3)%nat. rewrite field_app. change (2 ^ Z.of_nat 3) with 8. rewrite (Z.div_small ci 8) by lia. reflexivity. }
  rewrite EC, <- !app_assoc. reflexivity.
Qed.
Definition made (info : list Z) (b : Z) : es := mkEs 0 None None None 0 (4, 4, 4, 4)%nat 0x40 5 false 850 (b + 100000) b info 2 [].
Lemma esds_box_ok info b : length info = 2%nat -> 0 <= b < 2 ^ 32 - 100000 -> esds_box info b = esds_bytes (es_bytes (made info b)).
Proof.
  intros L B.
  assert (E : put_es info 0x40 5 0 850 (u32 (b + 100000)) b = es_bytes (made info b)).
  { unfold put_es, es_bytes, made. cbn [e_sizes]. cbv zeta. rewrite L. change (13 + 5 + Z.of_nat 2) with 20. change (3 + 1 + 20 + 10) with 34.
    rewrite !put_head_size by (try (unfold is_byte); lia). unfold u32. rewrite (Z.mod_small (b + 100000)) by lia.
    rewrite pack_dcd by (unfold is_byte, is_u; change (2 ^ Z.of_nat 6) with 64; lia).
    unfold desc at 1. unfold es_body, dcd_body. cbn [e_id e_depends e_url e_ocr e_priority e_type e_stream e_up e_buffer e_max e_avg e_info e_sl e_more some opt_bytes].
    rewrite !app_length, !desc_length, !app_length, !big_length, !desc_length, L. cbn [length].
    match goal with |- context [Z.of_nat (2 + (1 + ?x))] => change (Z.of_nat (2 + (1 + x))) with 34 end. unfold desc. rewrite L, !app_length, !big_length. cbn [length]. rewrite !app_length, size_groups_length, L.
    change (Z.of_nat (2 + (3 + (4 + (4 + S (4 + 2)))))) with 20. change (Z.of_nat 1) with 1. change (Z.of_nat 2) with 2. cbn [app].
    change (pack [(0, 16%nat); (0, 1%nat); (0, 1%nat); (0, 1%nat); (0, 5%nat)]) with [0; 0; 0]. change (pack [(2, 8%nat)]) with [2]. change (big 2 0) with [0; 0].
    rewrite !app_nil_r, <- !app_assoc. reflexivity. }
  unfold esds_box, esds_bytes. cbv zeta. rewrite E. change (pack [(box_esds, 32%nat); (0, 32%nat)]) with [101; 115; 100; 115; 0; 0; 0; 0].
  rewrite (pack_big 4). rewrite app_length. cbn [length]. cbn [app]. f_equal. f_equal. lia.
Qed.
Lemma made_ok info b : bytes info -> length info = 2%nat -> 0 <= b < 2 ^ 32 - 100000 -> es_ok (made info b).
Proof.
  intros BI L B. unfold es_ok, made. cbn [e_sizes e_id e_depends e_url e_ocr e_priority e_type e_stream e_up e_buffer e_max e_avg e_info e_sl e_more given].
  assert (P : 2 ^ (7 * Z.of_nat 4) = 268435456) by reflexivity. unfold size_ok, is_u, is_byte. rewrite P.
  split; [|change (2 ^ Z.of_nat 16) with 65536; change (2 ^ Z.of_nat 5) with 32; change (2 ^ Z.of_nat 6) with 64; change (2 ^ Z.of_nat 24) with 16777216; change (2 ^ Z.of_nat 32) with (2 ^ 32)].
  - unfold es_body, dcd_body. cbn [e_sizes e_id e_depends e_url e_ocr e_priority e_type e_stream e_up e_buffer e_max e_avg e_info e_sl e_more some opt_bytes].
    rewrite !app_length, !desc_length, !app_length, !big_length, !desc_length, L. cbn [length]. lia.
  - repeat match goal with |- _ /\ _ => split end; try exact Logic.I; try assumption; try lia. constructor.
Qed.
