(** Property C69: content protection signalling. *)
From Coq Require Import String.
From Verif Require Import Util Str_model Base64_model Base64_spec Base64_proofs SampleTab_model Box_model Frag_model Frag_proofs2 Movie_model Drm_model Drm_proofs.
Local Open Scope Z_scope.

(** C69: the key id as text is the UUID of its sixteen bytes, and says which key id it is. *)
Theorem C69_kid_text : forall kid, id16 kid ->
  kid_to_string kid = uuid_text kid /\
  forall other, id16 other -> kid_to_string other = kid_to_string kid -> other = kid.
Proof.
  intros kid K. split; [exact (kid_text kid K)|]. intros other O E. rewrite !kid_text in E by assumption. exact (uuid_inj other kid O K E).
Qed.
Print Assumptions C69_kid_text.

(** C69: the PlayReady header: the key id as a GUID, the checksum of the key, the licence server. *)
Theorem C69_playready_header : forall aes key kid url,
  id16 kid -> bytes (aes key (guid_bytes kid)) -> Forall (fun c => c <> 60) url ->
  exists h, wmheader aes key kid url = Some h /\
    element "KID" h = Some (rfc4648 (guid_bytes kid)) /\
    element "CHECKSUM" h = Some (rfc4648 (firstn 8 (aes key (guid_bytes kid)))) /\
    element "LA_URL" h = Some url.
Proof. exact header_ok. Qed.
Print Assumptions C69_playready_header.

(** C69: where wide characters take two bytes, the data of the PlayReady pssh box is a PlayReady
    object holding the header. *)
Theorem C69_playready_object : forall header,
  Forall (fun c => 0 <= c < 2 ^ 16) header -> 2 * zlen header < 2 ^ 16 ->
  playready_object (playready_body 2 header) header.
Proof. exact object_windows. Qed.
Print Assumptions C69_playready_object.

(** C69, refuted where wide characters take four bytes (Linux, OS X): the length field is wrong for
    every header, the data is no PlayReady object at all. *)
Theorem C69_playready_object_refuted : forall header text,
  header <> [] -> 10 + 4 * zlen header < 2 ^ 32 -> ~ playready_object (playready_body 4 header) text.
Proof. exact object_linux. Qed.
Print Assumptions C69_playready_object_refuted.

(** C69: the descriptors of the MPD for PlayReady. *)
Theorem C69_playready_descriptor : forall kid body, id16 kid -> bytes body ->
  exists t rest system, uuid_text system = str "9A04F079-9840-4286-AB92-E65BE0885F95" /\
  playready_text kid body = Some t /\
  attribute "schemeIdUri" t = Some (str "urn:mpeg:dash:mp4protection:2011") /\ attribute "value" t = Some (str "cenc") /\
  attribute "cenc:default_KID" t = Some (uuid_text kid) /\
  following (str "/>") t = Some rest /\
  attribute "schemeIdUri" rest = Some (str "urn:uuid:" ++ lower (uuid_text system)) /\
  attribute "cenc:default_KID" rest = Some (uuid_text kid) /\
  element "mspr:pro" rest = Some (rfc4648 body) /\
  (zlen body < 2 ^ 32 - 32 -> pssh_bytes [playready_pssh body] = Some (layout (pssh_layout system [] body))).
Proof.
  intros kid body K B. destruct (playready_desc kid body K B) as [t [rest [E1 [E2 [E3 [E4 [E5 [E6 [E7 E8]]]]]]]]].
  exists t, rest, PLAYREADY. split; [reflexivity|]. do 8 (split; [assumption|]). intro L. exact (data_written (playready_pssh body) eq_refl eq_refl L).
Qed.
Print Assumptions C69_playready_descriptor.

(** C69: ClearKey: the pssh box of the initialisation segment and the one in the MPD name the key id. *)
Theorem C69_clearkey : forall kid, id16 kid ->
  exists t system, uuid_text system = str "1077EFEC-C0B2-4D02-ACE3-3C1E52E2FB4B" /\
  clearkey_text kid = Some t /\
  attribute "schemeIdUri" t = Some (str "urn:uuid:" ++ lower (uuid_text system)) /\
  element "cenc:pssh" t = Some (rfc4648 (layout (pssh_layout system [kid] []))) /\
  pssh_bytes [clearkey_pssh kid] = Some (layout (pssh_layout system [kid] [])).
Proof.
  intros kid K. destruct (clearkey_desc kid K) as [t [E1 [E2 E3]]]. exists t, CLEARKEY. split; [reflexivity|]. do 3 (split; [assumption|]). exact (clearkey_written kid K).
Qed.
Print Assumptions C69_clearkey.

(** C69: Widevine: the data given in base64 is the data of both pssh boxes. *)
Theorem C69_widevine : forall junk data, bytes data -> zlen data < 2 ^ 32 - 32 ->
  exists body t system, uuid_text system = str "EDEF8BA9-79D6-4ACE-A3C8-27DCD51D21ED" /\
  widevine_body junk (rfc4648 data) = Some body /\ widevine_text body = Some t /\
  attribute "schemeIdUri" t = Some (str "urn:uuid:" ++ lower (uuid_text system)) /\
  element "cenc:pssh" t = Some (rfc4648 (layout (pssh_layout system [] data))) /\
  pssh_bytes [widevine_pssh body] = Some (layout (pssh_layout system [] data)).
Proof.
  intros junk data B L. destruct (widevine_desc junk data B L) as [body [t [E1 [E2 [E3 [E4 E5]]]]]]. exists body, t, WIDEVINE. split; [reflexivity|]. do 4 (split; [assumption|]). exact E5.
Qed.
Print Assumptions C69_widevine.

(** C69: the boxes of all the systems asked for follow each other, in order. *)
Theorem C69_all_systems : forall l lay,
  Forall2 (fun p i =>
    p_version p = 0 /\ i = pssh_layout (p_system p) [] (p_data p) \/
    p_version p = 1 /\ p_count p = 1 /\ i = pssh_layout (p_system p) [p_kid p] (p_data p)) l lay ->
  Forall fits lay -> pssh_bytes l = Some (List.concat (map layout lay)).
Proof. exact pssh_written. Qed.
Print Assumptions C69_all_systems.

(** C69: a box with at most one key id, read, is the box written. *)
Theorem C69_pssh_back : forall system kids data pre post head rest,
  zlen system = 16 -> zlen data < 2 ^ 32 -> (kids = [] \/ exists kid, kids = [kid] /\ zlen kid = 16) ->
  layout (pssh_layout system kids data) = head ++ rest -> length head = 8%nat ->
  exists p, get_pssh (pre ++ rest ++ post) (zlen pre) = Some (p, zlen pre + zlen rest) /\ put_pssh p = rest /\
    p_system p = system /\ p_data p = data /\ (forall kid, kids = [kid] -> p_kid p = kid).
Proof.
  intros system kids data pre post head rest S16 D K E H.
  assert (R : rest = (match kids with [] => [0; 0; 0; 0] | _ => [1; 0; 0; 0] end) ++ system ++ (match kids with [] => [] | _ => be32 (zlen kids) ++ List.concat kids end) ++ be32 (zlen data) ++ data).
  { unfold pssh_layout in E. cbn [layout] in E. rewrite app_assoc in E. destruct (Box_proofs.app_split4 _ _ _ _ E) as [_ E2]; [rewrite app_length, !Box_proofs.be32_length; lia|]. symmetry. exact E2. }
  destruct K as [-> |[kid [-> K]]]; subst rest.
  - exists (mkP 0 system 0 [] data). split; [exact (plain_read system data S16 D pre post)|]. split; [reflexivity|]. split; [reflexivity|]. split; [reflexivity|]. intros kid Q. discriminate.
  - exists (mkP 1 system 1 kid data). split; [exact (kids_read 1 system [kid] data ltac:(lia) S16 ltac:(constructor; [exact K|constructor]) ltac:(vm_compute; reflexivity) D pre post)|].
    split; [unfold put_pssh; cbn [p_version p_system p_count p_kid p_data]; change (0 <? 1) with true; cbv iota; change (Z.to_nat 1) with 1%nat; cbn [repeat]; reflexivity|].
    split; [reflexivity|]. split; [reflexivity|]. intros kid' Q. cbn [p_kid]. congruence.
Qed.
Print Assumptions C69_pssh_back.

(** C69, refuted for several key ids: only the last is kept, and it is written that many times. *)
Theorem C69_pssh_kids_refuted : forall system kids data pre post,
  zlen system = 16 -> zlen data < 2 ^ 32 -> Forall (fun k => zlen k = 16) kids -> kids <> [] -> zlen kids < 2 ^ 32 ->
  exists p, get_pssh (pre ++ ([1; 0; 0; 0] ++ system ++ (be32 (zlen kids) ++ List.concat kids) ++ be32 (zlen data) ++ data) ++ post) (zlen pre) = Some (p, zlen pre + zlen ([1; 0; 0; 0] ++ system ++ (be32 (zlen kids) ++ List.concat kids) ++ be32 (zlen data) ++ data)) /\
    put_pssh p = [1; 0; 0; 0] ++ system ++ (be32 (zlen kids) ++ List.concat (repeat (last kids []) (length kids))) ++ be32 (zlen data) ++ data.
Proof.
  intros system kids data pre post S16 D K NE KL. exists (mkP 1 system (zlen kids) (last kids []) data).
  split; [exact (kids_read 1 system kids data ltac:(lia) S16 K KL D pre post)|].
  unfold put_pssh. cbn [p_version p_system p_count p_kid p_data]. change (0 <? 1) with true. cbv iota. unfold zlen at 2. rewrite Nat2Z.id. reflexivity.
Qed.
Print Assumptions C69_pssh_kids_refuted.

(** C69: the key file for ClearKey carries the key id and the key ... *)
Theorem C69_json_key : forall kid key, id16 kid -> id16 key ->
  exists t, json_key kid key = Some t /\ member "kid" t = Some (rfc4648 kid) /\ member "k" t = Some (rfc4648 key).
Proof. exact json_desc. Qed.
Print Assumptions C69_json_key.
(** ... but never in the alphabet a JSON Web Key asks for: there is always padding. *)
Theorem C69_json_key_refuted : forall kid key, id16 kid -> id16 key ->
  exists t a b, json_key kid key = Some t /\ member "kid" t = Some a /\ member "k" t = Some b /\ ~ base64url a /\ ~ base64url b.
Proof.
  intros kid key K1 K2. destruct (json_desc kid key K1 K2) as [t [E1 [E2 E3]]]. exists t, (rfc4648 kid), (rfc4648 key).
  split; [exact E1|]. split; [exact E2|]. split; [exact E3|]. split; apply not_url; apply padded; assumption.
Qed.
Print Assumptions C69_json_key_refuted.

Definition ex_kid : list Z := [16; 1; 2; 3; 4; 5; 6; 7; 8; 9; 10; 11; 12; 13; 14; 255].
Example C69_nonvacuous :
  id16 ex_kid /\ uuid_text ex_kid = str "10010203-0405-0607-0809-0A0B0C0D0EFF" /\
  (exists h, wmheader (fun _ x => x) ex_kid ex_kid (str "http://a/b") = Some h /\ element "KID" h = Some (str "AwIBEAUEBwYICQoLDA0O/w==") /\ zlen (playready_body 2 h) = 10 + 2 * zlen h) /\
  json_key ex_kid ex_kid = Some (str "{ ""keys"":[{""kid"" : ""EAECAwQFBgcICQoLDA0O/w=="" , ""k"" : ""EAECAwQFBgcICQoLDA0O/w==""}]}") /\
  pssh_bytes [clearkey_pssh ex_kid; widevine_pssh [1; 2; 3]] = Some ([0; 0; 0; 52; 112; 115; 115; 104; 1; 0; 0; 0; 16; 119; 239; 236; 192; 178; 77; 2; 172; 227; 60; 30; 82; 226; 251; 75; 0; 0; 0; 1] ++ ex_kid ++ [0; 0; 0; 0] ++
    [0; 0; 0; 35; 112; 115; 115; 104; 0; 0; 0; 0; 237; 239; 139; 169; 121; 214; 74; 206; 163; 200; 39; 220; 213; 29; 33; 237; 0; 0; 0; 3; 1; 2; 3]).
Proof.
  split. { split; [|reflexivity]. unfold ex_kid, bytes. repeat (apply Forall_cons; [unfold is_byte; lia|]). constructor. }
  split; [vm_compute; reflexivity|]. split. { eexists. split; [vm_compute; reflexivity|]. split; vm_compute; reflexivity. }
  split; vm_compute; reflexivity.
Qed.
