(** Model of the content protection providers of the packager, /repo/src/mgcli/cenc_provider.h: the
    text of a key id 24-42, PlayReadyCencProvider 52-337, ClearKeyCencProvider 339-452 and
    WidevineBoyProvider 454-570; of ProtectionSystemSpecificHeaderBox (mg/media/mp4/cenc.fl 288-356),
    and of the writing of the boxes (mgcli/mp4info.cpp 5451-5466).  BASE64 and HAVE_LIBGYPAES are
    defined.  The AES block cipher is any function; the base64 coder is Base64_model, the hexadecimal
    text Str_model, the box writer Box_model.  Texts are lists of characters; a wide string of ASCII
    characters is the same list. *)
From Coq Require Import String.
From Verif Require Import Util Str_model Base64_model Base64_spec SampleTab_model Box_model Frag_model Movie_model.
Local Open Scope Z_scope.

(** kid_to_string 24-42 *)
Definition kid_to_string (kid : list Z) : list Z :=
  let h from n s := append_hex_buffer s (firstn n (skipn from kid)) in
  h 10%nat 6%nat (h 8%nat 2%nat (h 6%nat 2%nat (h 4%nat 2%nat (h 0%nat 4%nat [] ++ [45]) ++ [45]) ++ [45]) ++ [45]).
(** binary_encode_kid 70-88: the loops, by the positions read *)
Definition binary_encode_kid (kid : list Z) : list Z :=
  map (fun j => nth j kid 0) ([3; 2; 1; 0] ++ [5; 4] ++ [7; 6] ++ [8; 9; 10; 11; 12; 13; 14; 15])%nat.
(** Base64 143-201; the flags are not used.  None: never for bytes (C02) *)
Definition base64 (b : list Z) : option (list Z) := encode [b].

(** ** PlayReady *)
Section PlayReady.
(** aes_ecb_encrypt of one block *)
Variable aes : list Z -> list Z -> list Z.
(** Checksum 93-110 *)
Definition checksum (key kid : list Z) : option (list Z) := base64 (firstn 8 (aes key kid)).
(** _wmheader 224-242 *)
Definition wmheader (key kid url : list Z) : option (list Z) :=
  next (base64 (binary_encode_kid kid)) (fun k => next (checksum key (binary_encode_kid kid)) (fun c => Some (
    str "<WRMHEADER xmlns=""http://schemas.microsoft.com/DRM/2007/03/PlayReadyHeader"" version=""4.0.0.0"">" ++
    str "<DATA><PROTECTINFO><KEYLEN>16</KEYLEN><ALGID>AESCTR</ALGID></PROTECTINFO><KID>" ++ k ++
    str "</KID><CHECKSUM>" ++ c ++
    str "</CHECKSUM><LA_URL>" ++ url ++
    str "</LA_URL><CUSTOMATTRIBUTES><IIS_DRM_VERSION>7.1.1565.4</IIS_DRM_VERSION></CUSTOMATTRIBUTES></DATA></WRMHEADER>"))).
End PlayReady.
(** little_putbits of whole bytes *)
Fixpoint little (n : nat) (x : Z) : list Z := match n with O => [] | S n => x mod 256 :: little n (x / 256) end.
(** _body 244, 270-284; [wchar] = sizeof(wchar_t) *)
Definition playready_body (wchar : Z) (header : list Z) : list Z :=
  let size := u32 (10 + wchar * zlen header) in
  little 4 size ++ little 2 1 ++ little 2 1 ++ little 2 (wchar * zlen header) ++ flat_map (little 2) header.

(** ** pssh boxes *)
(** ProtectionSystemSpecificHeaderBox: version, SystemID (16 bytes), KID_count, KID (16 bytes), _p_data *)
Record pssh := mkP { p_version : Z; p_system : list Z; p_count : Z; p_kid : list Z; p_data : list Z }.
(** put: the one KID is written KID_count times *)
Definition put_pssh (p : pssh) : list Z :=
  full (p_version p) 0 ++ p_system p ++ (if 0 <? p_version p then be32 (p_count p) ++ List.concat (repeat (p_kid p) (Z.to_nat (p_count p))) else []) ++ be32 (zlen (p_data p)) ++ p_data p.
(** get: every KID read replaces the one before.  Simplified: without a KID the field is empty
    instead of not initialised. *)
Definition get_pssh : rdr pssh :=
  rbind (rnum 1) (fun v => rbind (rskip 3) (fun _ => rbind (rbytes 16) (fun s =>
  rbind (if 0 <? v then rbind (rnum 4) (fun n => rbind (rrep (Z.to_nat n) (rbytes 16)) (fun l => rret (n, last l []))) else rret (0, [])) (fun k =>
  rbind (rnum 4) (fun n => rbind (rbytes (Z.to_nat n)) (fun d => rret (mkP v s (fst k) (snd k) d))))))).
Definition PSSH := BOX 112 115 115 104.
(** mp4info.cpp 5451-5459, and the boxes of the providers 388-399, 545-551: open_box, write_box,
    close_box for each *)
Fixpoint write_pssh (l : list pssh) (w : wr) : option wr :=
  match l with [] => Some w | p :: l => next (close_box (put (put_pssh p) (open_box PSSH w))) (write_pssh l) end.
Definition pssh_bytes (l : list pssh) : option (list Z) := next (write_pssh l (mkW [] 0 [])) (fun w => Some (w_file w)).

(** ** The providers *)
Definition PLAYREADY : list Z := [154; 4; 240; 121; 152; 64; 66; 134; 171; 146; 230; 91; 224; 136; 95; 149].
Definition CLEARKEY : list Z := [16; 119; 239; 236; 192; 178; 77; 2; 172; 227; 60; 30; 82; 226; 251; 75].
Definition WIDEVINE : list Z := [237; 239; 139; 169; 121; 214; 74; 206; 163; 200; 39; 220; 213; 29; 33; 237].
(** add_pssh 288-309 *)
Definition playready_pssh (body : list Z) : pssh := mkP 0 PLAYREADY 0 [] body.
(** add_ContentProtection 311-337 *)
Definition playready_text (kid body : list Z) : option (list Z) :=
  next (base64 body) (fun b => Some (
    str "<ContentProtection schemeIdUri=""urn:mpeg:dash:mp4protection:2011"" value=""cenc"" cenc:default_KID=""" ++ kid_to_string kid ++ str """/>" ++
    str "<ContentProtection schemeIdUri=""urn:uuid:9a04f079-9840-4286-ab92-e65be0885f95"" value=""2.0"" cenc:default_KID=""" ++ kid_to_string kid ++ str """>" ++
    str "<mspr:pro>" ++ b ++ str "</mspr:pro>" ++ str "</ContentProtection>")).
(** fill_pssh 345-375 *)
Definition clearkey_pssh (kid : list Z) : pssh := mkP 1 CLEARKEY 1 kid [].
(** add_ContentProtection 427-440 *)
Definition clearkey_text (kid : list Z) : option (list Z) :=
  next (pssh_bytes [clearkey_pssh kid]) (fun b => next (base64 b) (fun t => Some (
    str "<ContentProtection schemeIdUri=""urn:uuid:1077efec-c0b2-4d02-ace3-3c1e52e2fb4b"">" ++ str "<cenc:pssh>" ++ t ++ str "</cenc:pssh>" ++ str "</ContentProtection>"))).
(** json_key 442-451 *)
Definition json_key (kid key : list Z) : option (list Z) :=
  next (base64 kid) (fun a => next (base64 key) (fun b => Some (str "{ ""keys"":[{""kid"" : """ ++ a ++ str """ , ""k"" : """ ++ b ++ str """}]}"))).
(** the body decoded 496-511; [junk] is what the memory decoded into held *)
Definition widevine_body (junk : Z) (text : list Z) : option (list Z) := decode junk [text].
(** fill 516-528 *)
Definition widevine_pssh (body : list Z) : pssh := mkP 0 WIDEVINE 0 [] body.
(** add_ContentProtection 540-569 *)
Definition widevine_text (body : list Z) : option (list Z) :=
  next (pssh_bytes [widevine_pssh body]) (fun b => next (base64 b) (fun t => Some (
    str "<ContentProtection value=""Widevine"" schemeIdUri=""urn:uuid:edef8ba9-79d6-4ace-a3c8-27dcd51d21ed"" >" ++ str "<cenc:pssh>" ++ t ++ str "</cenc:pssh>" ++ str "</ContentProtection>"))).

(** * Specification vocabulary *)
(** sixteen bytes *)
Definition id16 (k : list Z) : Prop := bytes k /\ zlen k = 16.
(** hexadecimal digits of bytes, and the text form of a UUID (RFC 4122): 8-4-4-4-12 digits *)
Definition digits (bs : list Z) : list Z := flat_map (fun b => [nth (Z.to_nat (b / 16)) (str "0123456789ABCDEF") 0; nth (Z.to_nat (b mod 16)) (str "0123456789ABCDEF") 0]) bs.
Definition uuid_text (k : list Z) : list Z :=
  match k with
  | [a; b; c; d; e; f; g; h; i; j; k; l; m; n; o; p] => digits [a; b; c; d] ++ str "-" ++ digits [e; f] ++ str "-" ++ digits [g; h] ++ str "-" ++ digits [i; j] ++ str "-" ++ digits [k; l; m; n; o; p]
  | _ => []
  end.
(** a UUID as a Windows GUID in memory: the first three fields least significant byte first *)
Definition guid_bytes (k : list Z) : list Z :=
  match k with
  | [a; b; c; d; e; f; g; h; i; j; k; l; m; n; o; p] => [d; c; b; a; f; e; h; g; i; j; k; l; m; n; o; p]
  | _ => []
  end.
(** numbers least significant byte first, text as UTF-16LE (of the basic plane), a PlayReady Object
    with one rights management header (PlayReady Header Specification): total length, number of
    records, type and length of the record, text *)
Definition lsb2 (x : Z) : list Z := [x mod 256; x / 256].
Definition lsb4 (x : Z) : list Z := [x mod 256; x / 2 ^ 8 mod 256; x / 2 ^ 16 mod 256; x / 2 ^ 24].
Definition utf16 (t : list Z) : list Z := flat_map lsb2 t.
Definition playready_object (l text : list Z) : Prop :=
  10 + 2 * zlen text < 2 ^ 32 /\ 2 * zlen text < 2 ^ 16 /\ Forall (fun c => 0 <= c < 2 ^ 16) text /\
  l = lsb4 (zlen l) ++ lsb2 1 ++ lsb2 1 ++ lsb2 (2 * zlen text) ++ utf16 text.
(** a pssh box (ISO/IEC 23001-7, 8.1): version 1 with key ids, version 0 without *)
Definition pssh_layout (system : list Z) (kids : list (list Z)) (data : list Z) : item :=
  Leaf (112 * 2 ^ 24 + 115 * 2 ^ 16 + 115 * 2 ^ 8 + 104)
    ((match kids with [] => [0; 0; 0; 0] | _ => [1; 0; 0; 0] end) ++ system ++ (match kids with [] => [] | _ => be32 (zlen kids) ++ List.concat kids end) ++ be32 (zlen data) ++ data).
(** what follows the first [p] in a text; what comes before the first [p]; an element's content *)
Fixpoint starts (p s : list Z) : option (list Z) :=
  match p, s with [], _ => Some s | a :: p, b :: s => if a =? b then starts p s else None | _, [] => None end.
Fixpoint following (p s : list Z) : option (list Z) :=
  match starts p s with Some r => Some r | None => match s with [] => None | _ :: s => following p s end end.
Fixpoint preceding (p s : list Z) : option (list Z) :=
  match starts p s with Some _ => Some [] | None => match s with [] => None | c :: s => match preceding p s with Some r => Some (c :: r) | None => None end end end.
Definition between (open close s : list Z) : option (list Z) := match following open s with Some r => preceding close r | None => None end.
Definition element (name : string) (s : list Z) : option (list Z) := between (str "<" ++ str name ++ str ">") (str "</" ++ str name ++ str ">") s.
(** the value of the first attribute of that name *)
Definition attribute (name : string) (s : list Z) : option (list Z) := between (str name ++ str "=""") (str """") s.
(** a member of a JSON object whose value is a string without escapes, as json_key spaces it *)
Definition member (name : string) (s : list Z) : option (list Z) := between (str """" ++ str name ++ str """ : """) (str """") s.
(** lower case *)
Definition lower (t : list Z) : list Z := map (fun c => if (65 <=? c) && (c <=? 90) then c + 32 else c) t.
(** base64url without padding (RFC 4648 section 5, as RFC 7515 wants for keys): the characters *)
Definition base64url (t : list Z) : Prop := Forall (fun c => 65 <= c <= 90 \/ 97 <= c <= 122 \/ 48 <= c <= 57 \/ c = 45 \/ c = 95) t.
