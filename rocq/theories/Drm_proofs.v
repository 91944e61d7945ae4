(** Proofs about content protection signalling (Drm_model). *)
From Coq Require Import String ZifyNat.
From Verif Require Import Util Str_model Str_proofs Base64_model Base64_spec Base64_proofs SampleTab_model SampleTab_proofs Box_model Box_proofs Frag_model Frag_proofs Frag_proofs2 Movie_model Drm_model.
Local Open Scope Z_scope.
Local Ltac Zify.zify_post_hook ::= Z.div_mod_to_equations.

(** ** Key ids *)
Lemma id16_cases : forall k, id16 k -> exists a b c d e f g h i j k' l m n o p, k = [a; b; c; d; e; f; g; h; i; j; k'; l; m; n; o; p] /\ bytes k.
Proof.
  intros k [B L]. unfold zlen in L.
  do 16 (destruct k as [|? k]; [cbn [length] in L; lia|]). destruct k; [|cbn [length] in L; lia].
  repeat eexists. exact B.
Qed.
Lemma hex_digits : forall b, is_byte b -> hex_of b = digits [b].
Proof.
  intros b H.
  assert (A : forallb (fun b => if list_eq_dec Z.eq_dec (hex_of b) (digits [b]) then true else false) (map Z.of_nat (seq 0 256)) = true) by (vm_compute; reflexivity).
  rewrite forallb_forall in A. specialize (A b). assert (I : In b (map Z.of_nat (seq 0 256))).
  { apply in_map_iff. exists (Z.to_nat b). unfold is_byte in H. split; [lia|]. apply in_seq. lia. }
  specialize (A I). destruct (list_eq_dec Z.eq_dec (hex_of b) (digits [b])); [assumption|discriminate].
Qed.
Lemma hex_all : forall bs, bytes bs -> flat_map hex_of bs = digits bs.
Proof. induction bs as [|b bs IH]; intros H; [reflexivity|]. apply bytes_cons in H. destruct H as [Hb H]. cbn [flat_map]. rewrite IH by exact H. rewrite hex_digits by exact Hb. reflexivity. Qed.
Lemma Forall_firstn : forall (P : Z -> Prop) n l, Forall P l -> Forall P (firstn n l).
Proof. induction n as [|n IH]; intros l H; [constructor|]. destruct H; [constructor|]. cbn [firstn]. constructor; [assumption|apply IH; assumption]. Qed.
Lemma kid_text : forall kid, id16 kid -> kid_to_string kid = uuid_text kid.
Proof.
  intros kid H. destruct (id16_cases kid H) as [a [b [c [d [e [f [g [h [i [j [k [l [m [n [o [p [-> B]]]]]]]]]]]]]]]]].
  unfold kid_to_string. cbv zeta. cbn [firstn skipn].
  repeat match goal with H : bytes (_ :: _) |- _ => apply bytes_cons in H; destruct H end.
  assert (F : forall s l, Forall is_byte l -> append_hex_buffer s l = s ++ digits l).
  { intros s l' Q. rewrite append_hex_eq by exact Q. rewrite hex_all by exact Q. reflexivity. }
  rewrite !F by (repeat (apply Forall_cons; [assumption|]); constructor).
  cbn [uuid_text app]. rewrite <- !app_assoc. reflexivity.
Qed.
Lemma digit_inj : forall b b', is_byte b -> is_byte b' -> digits [b] = digits [b'] -> b = b'.
Proof.
  intros b b' H H' E. rewrite <- !hex_digits in E by assumption. unfold hex_of in E.
  destruct (hex_byte b H) as [_ [P _]], (hex_byte b' H') as [_ [P' _]]. unfold hex_of in P, P'. rewrite E in P. congruence.
Qed.
Lemma digits_split : forall a b x y, digits a ++ x = digits b ++ y -> length a = length b -> bytes a -> bytes b -> a = b /\ x = y.
Proof.
  induction a as [|c a IH]; intros [|c' b] x y E L A B; try discriminate; [split; [reflexivity|exact E]|].
  apply bytes_cons in A. apply bytes_cons in B. destruct A as [A1 A], B as [B1 B].
  change (digits (c :: a)) with (digits [c] ++ digits a) in E. change (digits (c' :: b)) with (digits [c'] ++ digits b) in E. rewrite <- !app_assoc in E.
  destruct (app_split4 _ _ _ _ E eq_refl) as [E1 E2]. apply digit_inj in E1; try assumption. destruct (IH b x y E2) as [-> ->]; try assumption; [cbn [length] in L; lia|]. subst. split; reflexivity.
Qed.
Lemma uuid_inj : forall k k', id16 k -> id16 k' -> uuid_text k = uuid_text k' -> k = k'.
Proof.
  intros kk kk' H H' E.
  destruct (id16_cases kk H) as [a [b [c [d [e [f [g [h [i [j [k [l [m [n [o [p [-> B]]]]]]]]]]]]]]]]].
  destruct (id16_cases kk' H') as [a' [b' [c' [d' [e' [f' [g' [h' [i' [j' [k' [l' [m' [n' [o' [p' [-> B']]]]]]]]]]]]]]]]].
  clear H H'. repeat match goal with H : bytes (_ :: _) |- _ => apply bytes_cons in H; destruct H end.
  unfold uuid_text in E.
  assert (BB : forall l, Forall is_byte l -> bytes l) by (intros ? Q; exact Q).
  apply digits_split in E; [|reflexivity|apply BB; repeat (apply Forall_cons; [assumption|]); constructor|apply BB; repeat (apply Forall_cons; [assumption|]); constructor]. destruct E as [E1 E]. apply app_inv_head in E.
  apply digits_split in E; [|reflexivity|apply BB; repeat (apply Forall_cons; [assumption|]); constructor|apply BB; repeat (apply Forall_cons; [assumption|]); constructor]. destruct E as [E2 E]. apply app_inv_head in E.
  apply digits_split in E; [|reflexivity|apply BB; repeat (apply Forall_cons; [assumption|]); constructor|apply BB; repeat (apply Forall_cons; [assumption|]); constructor]. destruct E as [E3 E]. apply app_inv_head in E.
  apply digits_split in E; [|reflexivity|apply BB; repeat (apply Forall_cons; [assumption|]); constructor|apply BB; repeat (apply Forall_cons; [assumption|]); constructor]. destruct E as [E4 E]. apply app_inv_head in E.
  rewrite <- (app_nil_r (digits [k; l; m; n; o; p])), <- (app_nil_r (digits [k'; l'; m'; n'; o'; p'])) in E.
  apply digits_split in E; [|reflexivity|apply BB; repeat (apply Forall_cons; [assumption|]); constructor|apply BB; repeat (apply Forall_cons; [assumption|]); constructor]. destruct E as [E5 _].
  congruence.
Qed.
Lemma kid_guid : forall kid, id16 kid -> binary_encode_kid kid = guid_bytes kid.
Proof. intros kid H. destruct (id16_cases kid H) as [a [b [c [d [e [f [g [h [i [j [k [l [m [n [o [p [-> B]]]]]]]]]]]]]]]]]. reflexivity. Qed.
Lemma guid_id16 : forall kid, id16 kid -> id16 (guid_bytes kid).
Proof.
  intros kid H. destruct (id16_cases kid H) as [a [b [c [d [e [f [g [h [i [j [k [l [m [n [o [p [-> B]]]]]]]]]]]]]]]]].
  split; [|reflexivity]. clear H. repeat match goal with H : bytes (_ :: _) |- _ => apply bytes_cons in H; destruct H end.
  cbn [guid_bytes]. unfold bytes. repeat (apply Forall_cons; [assumption|]). constructor.
Qed.
Lemma base64_ok : forall b, bytes b -> base64 b = Some (rfc4648 b).
Proof. intros b H. unfold base64. rewrite encode_rfc by (constructor; [exact H|constructor]). cbn [List.concat]. rewrite app_nil_r. reflexivity. Qed.

(** ** Texts *)
Definition avoids (h : Z) (t : list Z) : Prop := Forall (fun c => c <> h) t.
Lemma starts_no : forall h p c s, c <> h -> starts (h :: p) (c :: s) = None.
Proof. intros h p c s H. cbn [starts]. destruct (Z.eqb_spec h c) as [Q|NE]; [congruence|reflexivity]. Qed.
Lemma following_skip : forall h p a r, avoids h a -> following (h :: p) (a ++ r) = following (h :: p) r.
Proof. intros h p a r H. induction H as [|c a NE H IH]; [reflexivity|]. rewrite <- app_comm_cons. change (following (h :: p) (c :: a ++ r)) with (match starts (h :: p) (c :: a ++ r) with Some r => Some r | None => following (h :: p) (a ++ r) end). rewrite starts_no by exact NE. exact IH. Qed.
Lemma starts_self : forall p r, starts p (p ++ r) = Some r.
Proof. induction p as [|c p IH]; intros r; [reflexivity|]. cbn [app starts]. rewrite Z.eqb_refl. apply IH. Qed.
Lemma preceding_found : forall h p a r, avoids h a -> preceding (h :: p) (a ++ (h :: p) ++ r) = Some a.
Proof.
  intros h p a r H. induction H as [|c a NE H IH].
  - cbn [app]. change (preceding (h :: p) (h :: p ++ r)) with (match starts (h :: p) ((h :: p) ++ r) with Some _ => Some [] | None => match preceding (h :: p) (p ++ r) with Some r => Some (h :: r) | None => None end end). rewrite starts_self. reflexivity.
  - rewrite <- app_comm_cons. change (preceding (h :: p) (c :: a ++ (h :: p) ++ r)) with (match starts (h :: p) (c :: a ++ (h :: p) ++ r) with Some _ => Some [] | None => match preceding (h :: p) (a ++ (h :: p) ++ r) with Some r => Some (c :: r) | None => None end end). rewrite starts_no by exact NE. rewrite IH. reflexivity.
Qed.
Lemma rfc_avoids : forall h b, h = 60 \/ h = 34 -> avoids h (rfc4648 b).
Proof.
  intros h b H. destruct (rfc_shape b) as [body [pad [-> [A P]]]]. apply Forall_app. split.
  - eapply Forall_impl; [|exact A]. intros c Q. unfold alphabet_char in Q. lia.
  - destruct P as [ -> |[ -> | -> ]]; repeat (apply Forall_cons; [lia|]); constructor.
Qed.
Definition sep (h : Z) : Prop := h = 34 \/ h = 47 \/ h = 60.
Lemma digits_avoid : forall h bs, sep h -> bytes bs -> avoids h (digits bs).
Proof.
  intros h bs S H. unfold sep in S. induction H as [|b bs Hb H IH]; [constructor|]. change (digits (b :: bs)) with (digits [b] ++ digits bs). apply Forall_app. split; [|exact IH].
  rewrite <- hex_digits by exact Hb. unfold hex_of, hex_digit, is_byte in *. repeat (apply Forall_cons; [match goal with |- context [if ?b <? 10 then _ else _] => destruct (Z.ltb_spec b 10) end; lia|]). constructor.
Qed.
Lemma uuid_avoids : forall h k, sep h -> id16 k -> avoids h (uuid_text k).
Proof.
  intros x kk S H. destruct (id16_cases kk H) as [a [b [c [d [e [f [g [h [i [j [k [l [m [n [o [p [-> B]]]]]]]]]]]]]]]]].
  clear H. repeat match goal with H : bytes (_ :: _) |- _ => apply bytes_cons in H; destruct H end.
  assert (D : avoids x (str "-")) by (unfold sep in S; constructor; [cbn; lia|constructor]).
  assert (A : forall y z, avoids x y -> avoids x z -> avoids x (y ++ z)) by (intros y z Q1 Q2; apply Forall_app; split; assumption).
  unfold uuid_text. do 8 (apply A; [first [exact D|apply digits_avoid; [exact S|]; repeat (apply Forall_cons; [assumption|]); constructor]|]). apply digits_avoid; [exact S|]; repeat (apply Forall_cons; [assumption|]); constructor.
Qed.

(** ** The PlayReady header *)
Lemma header_ok : forall aes key kid url, id16 kid -> bytes (aes key (guid_bytes kid)) -> avoids 60 url ->
  exists h, wmheader aes key kid url = Some h /\
    element "KID" h = Some (rfc4648 (guid_bytes kid)) /\ element "CHECKSUM" h = Some (rfc4648 (firstn 8 (aes key (guid_bytes kid)))) /\ element "LA_URL" h = Some url.
Proof.
  intros aes key kid url H HA HU. unfold wmheader. rewrite kid_guid by exact H. unfold checksum.
  rewrite base64_ok by apply (guid_id16 _ H). cbn [Movie_model.next]. rewrite base64_ok by (apply Forall_firstn; exact HA). cbn [Movie_model.next].
  eexists. split; [reflexivity|].
  pose proof (rfc_avoids 60 (guid_bytes kid) (or_introl eq_refl)) as A1. pose proof (rfc_avoids 60 (firstn 8 (aes key (guid_bytes kid))) (or_introl eq_refl)) as A2.
  set (k := rfc4648 (guid_bytes kid)) in *. set (c := rfc4648 (firstn 8 (aes key (guid_bytes kid)))) in *. clearbody k c. clear - A1 A2 HU.
  set (P1 := str "<WRMHEADER xmlns=""http://schemas.microsoft.com/DRM/2007/03/PlayReadyHeader"" version=""4.0.0.0"">").
  set (P2 := str "<DATA><PROTECTINFO><KEYLEN>16</KEYLEN><ALGID>AESCTR</ALGID></PROTECTINFO><KID>").
  set (P3 := str "</KID><CHECKSUM>"). set (P4 := str "</CHECKSUM><LA_URL>").
  set (P5 := str "</LA_URL><CUSTOMATTRIBUTES><IIS_DRM_VERSION>7.1.1565.4</IIS_DRM_VERSION></CUSTOMATTRIBUTES></DATA></WRMHEADER>").
  unfold element, between.
  split; [|split].
  - assert (F : forall r, following (str "<" ++ str "KID" ++ str ">") (P1 ++ P2 ++ r) = Some r) by (intro r; reflexivity).
    rewrite F. exact (preceding_found 60 (str "/KID>") k (str "<CHECKSUM>" ++ c ++ P4 ++ url ++ P5) A1).
  - assert (F : forall r, following (str "<" ++ str "CHECKSUM" ++ str ">") (P1 ++ P2 ++ r) = following (60 :: str "CHECKSUM>") r) by (intro r; reflexivity).
    rewrite F. rewrite following_skip by exact A1.
    assert (G : forall r, following (60 :: str "CHECKSUM>") (P3 ++ r) = Some r) by (intro r; reflexivity).
    rewrite G. exact (preceding_found 60 (str "/CHECKSUM>") c (str "<LA_URL>" ++ url ++ P5) A2).
  - assert (F : forall r, following (str "<" ++ str "LA_URL" ++ str ">") (P1 ++ P2 ++ r) = following (60 :: str "LA_URL>") r) by (intro r; reflexivity).
    rewrite F. rewrite following_skip by exact A1.
    assert (G : forall r, following (60 :: str "LA_URL>") (P3 ++ r) = following (60 :: str "LA_URL>") r) by (intro r; reflexivity).
    rewrite G. rewrite following_skip by exact A2.
    assert (K : forall r, following (60 :: str "LA_URL>") (P4 ++ r) = Some r) by (intro r; reflexivity).
    rewrite K. exact (preceding_found 60 (str "/LA_URL>") url (str "<CUSTOMATTRIBUTES><IIS_DRM_VERSION>7.1.1565.4</IIS_DRM_VERSION></CUSTOMATTRIBUTES></DATA></WRMHEADER>") HU).
Qed.

(** ** The PlayReady object *)
Lemma little2 : forall x, 0 <= x < 2 ^ 16 -> little 2 x = lsb2 x.
Proof. intros x H. cbn [little]. unfold lsb2. rewrite (Z.mod_small (x / 256)) by lia. reflexivity. Qed.
Lemma little4 : forall x, 0 <= x < 2 ^ 32 -> little 4 x = lsb4 x.
Proof. intros x H. cbn [little]. unfold lsb4. change (2 ^ 8) with 256. change (2 ^ 16) with 65536. change (2 ^ 24) with 16777216. change (2 ^ 32) with 4294967296 in *.
  change 65536 with (256 * 256). change 16777216 with (256 * 256 * 256). rewrite <- !Z.div_div by lia. rewrite (Z.mod_small (x / 256 / 256 / 256)) by (rewrite !Z.div_div by lia; lia). reflexivity. Qed.
Lemma little_chars : forall t, Forall (fun c => 0 <= c < 2 ^ 16) t -> flat_map (little 2) t = utf16 t.
Proof. intros t H. unfold utf16. induction H as [|c t Hc H IH]; [reflexivity|]. cbn [flat_map]. rewrite IH. rewrite little2 by exact Hc. reflexivity. Qed.
Lemma pairs_zlen : forall (f : Z -> list Z) (t : list Z), (forall c, zlen (f c) = 2) -> zlen (flat_map f t) = 2 * zlen t.
Proof. intros f t H. induction t as [|c t IH]; [reflexivity|]. cbn [flat_map]. rewrite zlen_app, H, IH. unfold zlen. cbn [length]. lia. Qed.
Lemma body_zlen : forall w h, zlen (playready_body w h) = 10 + 2 * zlen h.
Proof. intros w h. unfold playready_body. cbv zeta. rewrite !zlen_app. rewrite (pairs_zlen (little 2)) by (intro; reflexivity). change (zlen (little 4 (u32 (10 + w * zlen h)))) with 4. change (zlen (little 2 1)) with 2. change (zlen (little 2 (w * zlen h))) with 2. lia. Qed.
Lemma object_windows : forall h, Forall (fun c => 0 <= c < 2 ^ 16) h -> 2 * zlen h < 2 ^ 16 -> playready_object (playready_body 2 h) h.
Proof.
  intros h C L. pose proof (zlen_nonneg h). unfold playready_object. split; [lia|]. split; [exact L|]. split; [exact C|].
  rewrite body_zlen. unfold playready_body. cbv zeta. rewrite u32_id by lia. rewrite little4 by lia. rewrite (little2 (2 * zlen h)) by lia. rewrite little_chars by exact C. reflexivity.
Qed.
Lemma lsb4_inj : forall x y, 0 <= x < 2 ^ 32 -> 0 <= y < 2 ^ 32 -> lsb4 x = lsb4 y -> x = y.
Proof.
  intros x y Hx Hy E. unfold lsb4 in E. change (2 ^ 8) with 256 in E. change (2 ^ 16) with (256 * 256) in E. change (2 ^ 24) with (256 * 256 * 256) in E. rewrite <- !Z.div_div in E by lia.
  assert (E1 : x mod 256 = y mod 256) by congruence. assert (E2 : x / 256 mod 256 = y / 256 mod 256) by congruence. assert (E3 : x / 256 / 256 mod 256 = y / 256 / 256 mod 256) by congruence. assert (E4 : x / 256 / 256 / 256 = y / 256 / 256 / 256) by congruence. clear E.
  rewrite (Z.div_mod x 256), (Z.div_mod y 256), (Z.div_mod (x / 256) 256), (Z.div_mod (y / 256) 256), (Z.div_mod (x / 256 / 256) 256), (Z.div_mod (y / 256 / 256) 256) by lia. congruence.
Qed.
Lemma object_linux : forall h t, h <> [] -> 10 + 4 * zlen h < 2 ^ 32 -> ~ playready_object (playready_body 4 h) t.
Proof.
  intros h t N L [_ [_ [_ E]]]. rewrite body_zlen in E. unfold playready_body in E. cbv zeta in E. pose proof (zlen_nonneg h).
  rewrite u32_id in E by lia. rewrite little4 in E by lia.
  destruct (app_split4 _ _ _ _ E eq_refl) as [E1 _]. apply lsb4_inj in E1; [|lia|lia].
  destruct h; [congruence|]. unfold zlen in E1. cbn [length] in E1. lia.
Qed.

(** ** pssh boxes *)
Definition described (p : pssh) (i : item) : Prop :=
  (p_version p = 0 /\ i = pssh_layout (p_system p) [] (p_data p)) \/
  (p_version p = 1 /\ p_count p = 1 /\ i = pssh_layout (p_system p) [p_kid p] (p_data p)).
Lemma pssh_as : forall p i, described p i -> layout i = layout (Node PSSH [Raw (put_pssh p)]).
Proof.
  intros [v s n k d] i [[V ->]|[V [C ->]]]; cbn [p_version p_system p_count p_kid p_data] in *; subst; unfold pssh_layout, put_pssh; cbn [p_version p_system p_count p_kid p_data layout map List.concat]; rewrite !app_nil_r.
  - reflexivity.
  - change (0 <? 1) with true. cbv iota. change (Z.to_nat 1) with 1%nat. cbn [repeat List.concat]. rewrite app_nil_r. change (zlen [k]) with 1. rewrite <- !app_assoc. reflexivity.
Qed.
Lemma write_pssh_all : forall l w, write_pssh l w = write_all (map (fun p => Node PSSH [Raw (put_pssh p)]) l) w.
Proof. induction l as [|p l IH]; intros w; [reflexivity|]. cbn [write_pssh map write_all write]. unfold Movie_model.next. destruct (close_box _); [apply IH|reflexivity]. Qed.
Lemma described_fits : forall p i, described p i -> fits i -> fits (Node PSSH [Raw (put_pssh p)]).
Proof.
  intros p i D F. pose proof (pssh_as p i D) as E. cbn [fits]. split; [|split; exact Logic.I].
  assert (Q : zlen (layout i) < 2 ^ 32).
  { destruct D as [[_ ->]|[_ [_ ->]]]; unfold pssh_layout in *; cbn [fits layout] in *; rewrite !zlen_app in *; rewrite !be32_zlen in *; lia. }
  rewrite E in Q. cbn [layout] in Q. cbv zeta in Q. rewrite !zlen_app, !be32_zlen in Q. lia.
Qed.
Lemma pssh_written : forall l lay, Forall2 described l lay -> Forall fits lay -> pssh_bytes l = Some (List.concat (map layout lay)).
Proof.
  intros l lay H F. unfold pssh_bytes. rewrite write_pssh_all. change (mkW [] 0 []) with (fin [] []).
  rewrite write_all_ok.
  - cbn [Movie_model.next fin w_file]. f_equal. cbn [app]. f_equal. rewrite map_map. clear F. induction H as [|p i l lay D H IH]; [reflexivity|]. cbn [map]. rewrite IH. rewrite (pssh_as p i D). reflexivity.
  - induction H as [|p i l lay D H IH]; [constructor|]. cbn [map]. constructor; [exact (described_fits p i D (Forall_inv F))|]. apply IH. exact (Forall_inv_tail F).
Qed.
Lemma clearkey_written : forall kid, id16 kid -> pssh_bytes [clearkey_pssh kid] = Some (layout (pssh_layout CLEARKEY [kid] [])).
Proof.
  intros kid [B L]. rewrite (pssh_written [clearkey_pssh kid] [pssh_layout CLEARKEY [kid] []]).
  - cbn [map List.concat]. rewrite app_nil_r. reflexivity.
  - constructor; [right; repeat split|constructor].
  - constructor; [|constructor]. unfold pssh_layout. cbn [fits List.concat]. rewrite app_nil_r. rewrite !zlen_app, !be32_zlen, L. vm_compute. reflexivity.
Qed.
Lemma data_written : forall p, p_version p = 0 -> zlen (p_system p) = 16 -> zlen (p_data p) < 2 ^ 32 - 32 -> pssh_bytes [p] = Some (layout (pssh_layout (p_system p) [] (p_data p))).
Proof.
  intros p V S16 L. rewrite (pssh_written [p] [pssh_layout (p_system p) [] (p_data p)]).
  - cbn [map List.concat]. rewrite app_nil_r. reflexivity.
  - constructor; [left; split; [exact V|reflexivity]|constructor].
  - constructor; [|constructor]. unfold pssh_layout. cbn [fits]. rewrite !zlen_app, !be32_zlen, S16. change (zlen [0; 0; 0; 0]) with 4. change (zlen (@nil Z)) with 0. lia.
Qed.
Lemma be32_bytes : forall x, bytes (be32 x).
Proof. intro x. apply Box_proofs.be_bytes. Qed.
Lemma layout_bytes : forall s kids d, bytes s -> Forall bytes kids -> bytes d -> bytes (layout (pssh_layout s kids d)).
Proof.
  intros s kids d S16 K D. unfold pssh_layout. cbn [layout]. unfold bytes in *.
  assert (KK : Forall is_byte (List.concat kids)). { clear - K. induction K as [|k kids K1 K IH]; [constructor|]. cbn [List.concat]. apply Forall_app. split; assumption. }
  assert (A : forall x y, Forall is_byte x -> Forall is_byte y -> Forall is_byte (x ++ y)) by (intros x y Q1 Q2; apply Forall_app; split; assumption).
  apply A; [apply be32_bytes|]. apply A; [apply be32_bytes|]. apply A; [destruct kids; repeat (apply Forall_cons; [unfold is_byte; lia|]); constructor|]. apply A; [exact S16|].
  apply A; [destruct kids; [constructor|]; apply A; [apply be32_bytes|exact KK]|]. apply A; [apply be32_bytes|exact D].
Qed.
(** reading *)
Lemma reads_skip : forall n bs, length bs = n -> Reads (rskip n) bs tt.
Proof. intros n bs L. unfold rskip. rewrite <- (app_nil_r bs). eapply reads_bind; [apply reads_bytes; exact L|]. apply reads_ret. Qed.
Lemma kids_read : forall v s kids d, 0 < v < 256 -> zlen s = 16 -> Forall (fun k => zlen k = 16) kids -> zlen kids < 2 ^ 32 -> zlen d < 2 ^ 32 ->
  Reads get_pssh (full v 0 ++ s ++ (be32 (zlen kids) ++ List.concat kids) ++ be32 (zlen d) ++ d) (mkP v s (zlen kids) (last kids []) d).
Proof.
  intros v s kids d V S16 K KL D. pose proof (zlen_nonneg kids). pose proof (zlen_nonneg d). unfold get_pssh, full. rewrite <- app_assoc.
  rb v; [apply reads_num; cbn; lia|]. rb tt; [apply reads_skip; reflexivity|]. rb s; [apply reads_bytes; unfold zlen in S16; lia|].
  rb (zlen kids, last kids []).
  { replace (0 <? v) with true by (symmetry; apply Z.ltb_lt; lia). rb (zlen kids); [apply reads_num32; lia|].
    refine (reads_eq _ (List.concat kids ++ []) _ _ _ (app_nil_r _)). rb kids; [|apply reads_ret].
    unfold zlen. rewrite Nat2Z.id. apply reads_rep. clear - K. induction K as [|k kids K1 K IH]; constructor; [|exact IH]. apply reads_bytes. unfold zlen in K1. lia. }
  rb (zlen d); [apply reads_num32; lia|]. refine (reads_eq _ (d ++ []) d _ _ (app_nil_r d)). rb d; [apply reads_bytes; unfold zlen; lia|]. apply reads_ret.
Qed.
Lemma plain_read : forall s d, zlen s = 16 -> zlen d < 2 ^ 32 -> Reads get_pssh (full 0 0 ++ s ++ [] ++ be32 (zlen d) ++ d) (mkP 0 s 0 [] d).
Proof.
  intros s d S16 D. pose proof (zlen_nonneg d). unfold get_pssh, full. rewrite <- app_assoc.
  rb 0; [apply reads_num; cbn; lia|]. rb tt; [apply reads_skip; reflexivity|]. rb s; [apply reads_bytes; unfold zlen in S16; lia|].
  rb (0, @nil Z); [apply reads_ret|].
  rb (zlen d); [apply reads_num32; lia|]. refine (reads_eq _ (d ++ []) d _ _ (app_nil_r d)). rb d; [apply reads_bytes; unfold zlen; lia|]. apply reads_ret.
Qed.

(** ** The descriptors *)
Lemma playready_desc : forall kid body, id16 kid -> bytes body -> exists t rest,
  playready_text kid body = Some t /\ attribute "schemeIdUri" t = Some (str "urn:mpeg:dash:mp4protection:2011") /\ attribute "value" t = Some (str "cenc") /\ attribute "cenc:default_KID" t = Some (uuid_text kid) /\
  following (str "/>") t = Some rest /\ attribute "schemeIdUri" rest = Some (str "urn:uuid:" ++ lower (uuid_text PLAYREADY)) /\ attribute "cenc:default_KID" rest = Some (uuid_text kid) /\
  element "mspr:pro" rest = Some (rfc4648 body).
Proof.
  intros kid body K B. unfold playready_text. rewrite kid_text by exact K. rewrite base64_ok by exact B. cbn [Movie_model.next]. eexists. exists (str "<ContentProtection schemeIdUri=""urn:uuid:9a04f079-9840-4286-ab92-e65be0885f95"" value=""2.0"" cenc:default_KID=""" ++ uuid_text kid ++ str """>" ++ str "<mspr:pro>" ++ rfc4648 body ++ str "</mspr:pro>" ++ str "</ContentProtection>"). split; [reflexivity|].
  pose proof (uuid_avoids 34 kid (or_introl eq_refl) K) as A. pose proof (uuid_avoids 47 kid (or_intror (or_introl eq_refl)) K) as A3. pose proof (uuid_avoids 60 kid (or_intror (or_intror eq_refl)) K) as A4. pose proof (rfc_avoids 60 body (or_introl eq_refl)) as A2.
  set (u := uuid_text kid) in *. set (b := rfc4648 body) in *. clearbody u b. clear - A A2 A3 A4. unfold attribute, element, between.
  set (P1 := str "<ContentProtection schemeIdUri=""urn:mpeg:dash:mp4protection:2011"" value=""cenc"" cenc:default_KID=""").
  set (P2 := str "<ContentProtection schemeIdUri=""urn:uuid:9a04f079-9840-4286-ab92-e65be0885f95"" value=""2.0"" cenc:default_KID=""").
  split; [reflexivity|]. split; [reflexivity|].
  split. { assert (F : forall r, following (str "cenc:default_KID" ++ str "=""") (P1 ++ r) = Some r) by (intro; reflexivity). rewrite F. exact (preceding_found 34 [] u _ A). }
  split. { assert (F : forall r, following (str "/>") (P1 ++ r) = following (47 :: str ">") r) by (intro; reflexivity). rewrite F. rewrite following_skip by exact A3.
    assert (G : forall r, following (47 :: str ">") (str """/>" ++ r) = Some r) by (intro; reflexivity). rewrite G. reflexivity. }
  split; [reflexivity|].
  split. { assert (F : forall r, following (str "cenc:default_KID" ++ str "=""") (P2 ++ r) = Some r) by (intro; reflexivity). rewrite F. exact (preceding_found 34 [] u _ A). }
  assert (F : forall r, following (str "<" ++ str "mspr:pro" ++ str ">") (P2 ++ r) = following (60 :: str "mspr:pro>") r) by (intro; reflexivity).
  rewrite F. rewrite following_skip by exact A4.
  assert (G : forall r, following (60 :: str "mspr:pro>") (str """>" ++ str "<mspr:pro>" ++ r) = Some r) by (intro; reflexivity).
  rewrite G. exact (preceding_found 60 (str "/mspr:pro>") b _ A2).
Qed.
Lemma clearkey_desc : forall kid, id16 kid -> exists t,
  clearkey_text kid = Some t /\ attribute "schemeIdUri" t = Some (str "urn:uuid:" ++ lower (uuid_text CLEARKEY)) /\
  element "cenc:pssh" t = Some (rfc4648 (layout (pssh_layout CLEARKEY [kid] []))).
Proof.
  intros kid K. unfold clearkey_text. rewrite clearkey_written by exact K. cbn [Movie_model.next]. rewrite base64_ok.
  2: { apply layout_bytes; [repeat (apply Forall_cons; [unfold is_byte; lia|]); constructor|constructor; [apply K|constructor]|constructor]. }
  cbn [Movie_model.next]. eexists. split; [reflexivity|]. pose proof (rfc_avoids 60 (layout (pssh_layout CLEARKEY [kid] [])) (or_introl eq_refl)) as A2.
  set (b := rfc4648 _) in *. clearbody b. clear - A2. unfold attribute, element, between.
  set (P1 := str "<ContentProtection schemeIdUri=""urn:uuid:1077efec-c0b2-4d02-ace3-3c1e52e2fb4b"">").
  split; [reflexivity|].
  assert (F : forall r, following (str "<" ++ str "cenc:pssh" ++ str ">") (P1 ++ str "<cenc:pssh>" ++ r) = Some r) by (intro; reflexivity).
  rewrite F. exact (preceding_found 60 (str "/cenc:pssh>") b _ A2).
Qed.
Lemma widevine_desc : forall junk data, bytes data -> zlen data < 2 ^ 32 - 32 -> exists body t,
  widevine_body junk (rfc4648 data) = Some body /\ widevine_text body = Some t /\ attribute "schemeIdUri" t = Some (str "urn:uuid:" ++ lower (uuid_text WIDEVINE)) /\
  element "cenc:pssh" t = Some (rfc4648 (layout (pssh_layout WIDEVINE [] data))) /\ pssh_bytes [widevine_pssh body] = Some (layout (pssh_layout WIDEVINE [] data)).
Proof.
  intros junk data B L. exists data. unfold widevine_text.
  assert (W : pssh_bytes [widevine_pssh data] = Some (layout (pssh_layout WIDEVINE [] data))) by (apply (data_written (widevine_pssh data)); [reflexivity|reflexivity|exact L]).
  rewrite W. cbn [Movie_model.next]. rewrite base64_ok.
  2: { apply layout_bytes; [repeat (apply Forall_cons; [unfold is_byte; lia|]); constructor|constructor|exact B]. }
  cbn [Movie_model.next]. eexists.
  split. { unfold widevine_body. replace data with (List.concat [data]) at 2 by (cbn [List.concat]; apply app_nil_r). apply (roundtrip junk [data] [rfc4648 data] (rfc4648 data)); [constructor; [exact B|constructor]|exact (base64_ok data B)|cbn [List.concat]; apply app_nil_r]. }
  split; [reflexivity|]. pose proof (rfc_avoids 60 (layout (pssh_layout WIDEVINE [] data)) (or_introl eq_refl)) as A2. clear W.
  set (b := rfc4648 (layout _)) in *. clearbody b. clear - A2. unfold attribute, element, between.
  set (P1 := str "<ContentProtection value=""Widevine"" schemeIdUri=""urn:uuid:edef8ba9-79d6-4ace-a3c8-27dcd51d21ed"" >").
  split; [reflexivity|]. split; [|reflexivity].
  assert (F : forall r, following (str "<" ++ str "cenc:pssh" ++ str ">") (P1 ++ str "<cenc:pssh>" ++ r) = Some r) by (intro; reflexivity).
  rewrite F. exact (preceding_found 60 (str "/cenc:pssh>") b _ A2).
Qed.
Lemma json_desc : forall kid key, id16 kid -> id16 key -> exists t,
  json_key kid key = Some t /\ member "kid" t = Some (rfc4648 kid) /\ member "k" t = Some (rfc4648 key).
Proof.
  intros kid key K1 K2. unfold json_key. rewrite !base64_ok by (apply K1 || apply K2). cbn [Movie_model.next]. eexists. split; [reflexivity|].
  pose proof (rfc_avoids 34 kid (or_intror eq_refl)) as A1. pose proof (rfc_avoids 34 key (or_intror eq_refl)) as A2. pose proof (rfc_length kid) as LA. destruct K1 as [_ K1]. rewrite K1 in LA. change (4 * ((16 + 2) / 3)) with 24 in LA. set (a := rfc4648 kid) in *. set (b := rfc4648 key) in *. clearbody a b. clear - A1 A2 LA. unfold member, between.
  set (P1 := str "{ ""keys"":[{""kid"" : """).
  split.
  - assert (F : forall r, following (str """" ++ str "kid" ++ str """ : """) (P1 ++ r) = Some r) by (intro; reflexivity). rewrite F. exact (preceding_found 34 [] a _ A1).
  - destruct a as [|x [|y a]]; [discriminate|discriminate|]. clear LA. inversion A1 as [|? ? N1 A1']; subst. inversion A1' as [|? ? N2 A1'']; subst.
    assert (F : forall r, following (str """" ++ str "k" ++ str """ : """) (P1 ++ (x :: y :: a) ++ r) = following (34 :: str "k"" : """) ((x :: y :: a) ++ r)).
    { intro r. rewrite <- !app_comm_cons.
      transitivity (following (34 :: str "k"" : """) (34 :: x :: y :: a ++ r)); [reflexivity|].
      assert (SN : starts (34 :: str "k"" : """) (34 :: x :: y :: a ++ r) = None).
      { change (str "k"" : """) with (107 :: 34 :: str " : """). cbn [starts]. rewrite Z.eqb_refl. destruct (107 =? x); [|reflexivity]. destruct (Z.eqb_spec 34 y) as [Q|NE]; [congruence|reflexivity]. }
      cbn [following]. rewrite SN. reflexivity. }
    rewrite F. rewrite following_skip by exact A1.
    assert (G : forall r, following (34 :: str "k"" : """) (str """ , ""k"" : """ ++ r) = Some r) by (intro; reflexivity). rewrite G. exact (preceding_found 34 [] b _ A2).
Qed.
Lemma padded : forall k, id16 k -> In 61 (rfc4648 k).
Proof.
  intros kk K. destruct (id16_cases kk K) as [a [b [c [d [e [f [g [h [i [j [k [l [m [n [o [p [-> B]]]]]]]]]]]]]]]]].
  cbn [rfc4648]. repeat (apply in_or_app; right). cbn [In]. tauto.
Qed.
Lemma not_url : forall t, In 61 t -> ~ base64url t.
Proof. intros t H F. unfold base64url in F. rewrite Forall_forall in F. specialize (F 61 H). cbv beta in F. lia. Qed.
