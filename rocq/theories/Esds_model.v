(** Model of the audio decoder configuration in an mp4 file: the esds box.
    /repo/src/mg/media/mp4/mpeg4_odf.fl 56-353, 409-605 (descriptors), /repo/src/mg/media/mp4/aac.fl
    57-118 (AudioSpecificConfig), /repo/src/mg/media/mp4write.h 2019-2087 (written by
    add_audio_stream), /repo/src/mg/media/mp4parse.h 1782-1804 (read by CMP4AudioEntry::parse).

    The reader is a list of the bits left, as in Sps_model.  _ASSERTE is not modelled (release
    build).  Not modelled: what IP_IdentificationDataSet and QoS_Descriptor (355-381, 388-405) read
    (a descriptor with one of them after the SLConfigDescriptor counts here as undefined).
    InvalidInput stands for any exception other than EndOfData. *)
From Verif Require Import Util Bits_spec Ts_model Es_model Bitstream_model Sps_model.
Local Open Scope Z_scope.

(** nextbits(8) *)
Definition peek8 : getter Z := fun s => if Nat.leb 8 (length s) then Ok (bits_val (firstn 8 s), s) else EndOfData.
(** skipbits(n) stops at the end (bitstream.h 904-968) *)
Definition skipb (n : nat) : getter unit := fun s => Ok (tt, skipn n s).
(** aligned(8): the bytes are a whole number, so what is left tells where we are *)
Definition align8 : getter unit := fun s => Ok (tt, skipn (length s mod 8) s).
Definition throws {A} : getter A := fun _ => InvalidInput.
(** eof() of the stream, bitstream.h 1134 *)
Definition unless_end {A} (d : A) (p : getter A) : getter A := fun s => match s with [] => Ok (d, s) | _ => p s end.

(** * Descriptors, reading *)
(** mpeg4_odf.fl 86-96: the size, 7 bits a byte, in an unsigned int *)
Fixpoint get_size (n : nat) (size : Z) : getter Z :=
  match n with
  | O => fun _ => EndOfData
  | S n => let* b := getb 8 in let size := u32 (size * 128 + b mod 128) in if b <? 128 then gret size else get_size n size
  end.
(** descriptor::get 56-101: tag and length (an int) *)
Definition int32 (x : Z) : Z := if x <? 2 ^ 31 then x else x - 2 ^ 32.
Definition get_head : getter (Z * Z) :=
  let* _ := align8 in let* tag := getb 8 in fun s => bindo (get_size (S (length s)) 0 s) (fun r => Ok ((tag, int32 (fst r)), snd r)).
(** extension_descriptor::get 167-217: the bytes.  new BYTE[_byte_size] throws when the size is
    negative. *)
Definition get_ext : getter (list Z) :=
  let* (tag, len) := get_head in
  let* n := (if (0xD0 <=? tag) && (tag <=? 0xDF) then let* _ := getb 8 in gret (len - 1)
             else if tag =? 0xE0 then let* _ := getb 24 in gret (len - 3) else gret len) in
  if n <? 0 then throws else rep (Z.to_nat n) (getb 8).
(** the loop 258-262 *)
Fixpoint get_infos (n : nat) : getter (list (list Z)) :=
  match n with
  | O => fun _ => EndOfData
  | S n => let* t := peek8 in if t =? 5 then let* x := get_ext in let* l := get_infos n in gret (x :: l) else gret []
  end.
(** DecoderConfigDescriptor::get 240-264; [d_info] are the DecoderSpecificInfo *)
Record dcd := mkDcd { d_object : Z; d_stream : Z; d_up : Z; d_buffer : Z; d_max : Z; d_avg : Z; d_info : list (list Z) }.
Definition get_dcd : getter dcd :=
  let* _ := get_head in
  let* o := getb 8 in let* st := getb 6 in let* up := getb 1 in let* _ := getb 1 in let* bs := getb 24 in let* mx := getb 32 in let* av := getb 32 in
  fun s => bindo (get_infos (S (length s)) s) (fun r => Ok (mkDcd o st up bs mx av (fst r), snd r)).
(** getbits(n) with n out of the stream *)
Definition getv (n : Z) : getter Z := if 32 <? n then throws else getb (Z.to_nat n).
(** SLConfigDescriptor::get 309-353: predefined *)
Definition get_slc : getter Z :=
  let* _ := get_head in
  let* pre := getb 8 in
  if pre =? 0 then
    let* _ := getb 4 in let* stamps := getb 1 in let* clock := getb 1 in let* _ := getb 1 in let* dur := getb 1 in
    let* _ := getb 32 in let* _ := getb 32 in let* len := getb 8 in let* _ := getb 8 in let* _ := getb 8 in let* _ := getb 8 in let* _ := getb 4 in let* _ := getb 4 in
    let* _ := (if dur =? 0 then gret 0 else let* _ := getb 32 in let* _ := getb 16 in getb 16) in
    let* _ := (if stamps =? 0 then
        let* _ := (if clock =? 0 then gret 0 else let* _ := getb 32 in getb 32) in let* _ := getv len in getv len
      else gret 0) in
    let* ocr := getb 1 in let* _ := getb 7 in let* _ := (if ocr =? 0 then gret 0 else getb 16) in gret pre
  else gret pre.
(** the loop 439-449, with break at the end of the stream *)
Fixpoint get_exts (n : nat) : getter unit :=
  match n with
  | O => fun _ => EndOfData
  | S n => let* t := peek8 in
           if ((0x80 <=? t) && (t <=? 0xAF)) || ((0xD0 <=? t) && (t <=? 0xDF)) then let* _ := get_ext in unless_end tt (get_exts n) else gret tt
  end.
(** 452-494: a descriptor of this kind, when it is the next one and this is not the end *)
Definition next_is {A} (tag : Z) (p : getter A) : getter (option A) := unless_end None (let* t := peek8 in if t =? tag then let* x := p in gret (Some x) else gret None).
(** ES_Descriptor::get 409-501 *)
Definition get_es : getter (option dcd * option Z) :=
  let* _ := get_head in
  let* _ := getb 16 in let* dep := getb 1 in let* url := getb 1 in let* ocr := getb 1 in let* _ := getb 5 in
  let* _ := (if dep =? 0 then gret 0 else getb 16) in
  let* _ := (if url =? 0 then gret [] else let* n := getb 8 in rep (Z.to_nat n) (getb 8)) in
  let* _ := (if ocr =? 0 then gret 0 else getb 16) in
  let* _ := (fun s => get_exts (S (length s)) s) in
  let* _ := next_is 0x43 (let* _ := get_head in getb 24) in
  let* d := next_is 4 get_dcd in
  let* c := next_is 6 get_slc in
  let* _ := next_is 0x12 (let* _ := get_head in getb 16) in
  let* _ := next_is 0x26 (@gub unit) in
  let* _ := next_is 0x0C (@gub unit) in
  gret (d, c).

(** * AudioSpecificConfig *)
Record aac := mkAac { c_object : Z; c_rate : Z; c_chan : Z }.
(** aac_info_mp4::get, aac.fl 84-106.  A code without value gives 0 (as in Es_model). *)
Definition get_aac : getter aac :=
  let* o := getb 5 in
  let* o := (if o =? 31 then getb 32 else gret o) in
  let* r := getb 4 in let* _ := getb 1 in let* c := getb 3 in
  let* _ := (if (o =? 1) || (o =? 2) then
      let* f := getb 1 in
      if f =? 0 then let* dep := getb 1 in let* _ := (if dep =? 0 then gret 0 else getb 14) in let* _ := getb 1 in gret tt else skipb 2
    else skipb 3) in
  gret (mkAac o (nth (Z.to_nat r) rates 0) (nth (Z.to_nat c) channels 0)).
(** aac_info_mp4::put as add_audio_stream uses it (mp4write.h 2026-2035: the members of the
    constructor 109-115 are 0); None = a value without code.  skipbits leaves zeros; the code
    generator is not in the repository, and that it calls skipbits for put too is an assumption
    (needed for types other than 1 and 2). *)
Definition put_aac (object rate chan : Z) : option (list Z) :=
  match code_of rate rates, code_of chan channels with
  | Some r, Some c => Some (pack ([(object, 5%nat)] ++ (if object =? 31 then [(object, 32%nat)] else []) ++ [(r, 4%nat); (0, 1%nat); (c, 3%nat); (0, 3%nat)]))
  | _, _ => None
  end.

(** * Writing *)
(** descriptor::put 102-147: tag and always four bytes of size *)
Definition put_head (tag len : Z) : list Z :=
  [tag mod 256; 128 + Z.shiftr len 21 mod 128; 128 + Z.shiftr len 14 mod 128; 128 + Z.shiftr len 7 mod 128; len mod 128].
(** ES_Descriptor::set_extension 563-605 and put: [info] goes in the DecoderSpecificInfo *)
Definition put_es (info : list Z) (object stream up buffer mx avg : Z) : list Z :=
  let n := Z.of_nat (length info) in
  let dlen := 13 + 5 + n in
  put_head 3 (3 + 1 + dlen + 10) ++ pack [(0, 16%nat); (0, 1%nat); (0, 1%nat); (0, 1%nat); (0, 5%nat)]
  ++ put_head 4 dlen ++ pack [(object, 8%nat); (stream, 6%nat); (up, 1%nat); (1, 1%nat); (buffer, 24%nat); (mx, 32%nat); (avg, 32%nat)]
  ++ put_head 5 n ++ info
  ++ put_head 6 1 ++ pack [(2, 8%nat)].
(** mp4write.h 2037-2062: the box, with its size; target_bit_rate + 100000 in 32 bits *)
Definition box_esds := 0x65736473.
Definition esds_box (info : list Z) (bitrate : Z) : list Z :=
  let b := pack [(box_esds, 32%nat); (0, 32%nat)] ++ put_es info 0x40 5 0 850 (u32 (bitrate + 100000)) bitrate in
  pack [(4 + Z.of_nat (length b), 32%nat)] ++ b.
(** add_audio_stream 2019-2070: the bytes CMP4AudioEntry takes *)
Definition add_audio (object rate chan bitrate : Z) : option (list Z) := option_map (fun info => esds_box info bitrate) (put_aac object rate chan).
(** add_audio_stream 2074-2087: from codec private data *)
Definition add_audio_private (data : list Z) (bitrate : Z) : outcome (option (list Z)) :=
  bindo (get_aac (bytes_bits data)) (fun r => Ok (add_audio (c_object (fst r)) (c_rate (fst r)) (c_chan (fst r)) bitrate)).
(** CMP4AudioEntry::parse, mp4parse.h 1782-1804, on the bytes after the sample entry.  Without
    DecoderConfigDescriptor its pointer is null, without DecoderSpecificInfo p_ext is not set. *)
Definition get_audio (body : list Z) : outcome aac :=
  bindo ((let* _ := getb 32 in let* _ := getb 32 in let* _ := skipb 32 in get_es) (bytes_bits body)) (fun r =>
  match fst (fst r) with
  | None => UB
  | Some d => match rev (d_info d) with
              | [] => UB
              | [] :: _ => InvalidInput
              | info :: _ => bindo (get_aac (bytes_bits info)) (fun r => Ok (fst r))
              end
  end).

(** * Specification vocabulary: ISO/IEC 14496-1 7.2.6, 8.3.3 and 14496-3 1.6.2.1 *)
(** sizeOfInstance on [k] bytes, 7 bits each, the first bit set on all but the last *)
Fixpoint size_groups (k : nat) (n : Z) : list Z :=
  match k with O => [] | S k => (if Nat.eqb k 0 then 0 else 128) + n / 2 ^ (7 * Z.of_nat k) mod 128 :: size_groups k n end.
(** a descriptor with its size on [k] bytes *)
Definition desc (tag : Z) (k : nat) (body : list Z) : list Z := tag :: size_groups k (Z.of_nat (length body)) ++ body.
Definition big (n : nat) (v : Z) : list Z := map (fun i => v / 256 ^ Z.of_nat i mod 256) (rev (seq 0 n)).
(** the tables 1.6.3.4 and 1.19: code and sampling frequency, code and number of channels *)
Definition frequency (code : Z) : option Z :=
  nth_error [96000; 88200; 64000; 48000; 44100; 32000; 24000; 22050; 16000; 12000; 11025; 8000; 7350] (Z.to_nat code).
Definition speakers (code : Z) : option Z := nth_error [0; 1; 2; 3; 4; 5; 6; 8] (Z.to_nat code).
(** AudioSpecificConfig with an object type up to 30, a frequency of the table and a channel
    configuration below 8; [core]: coreCoderDelay, when the stream depends on a core coder *)
Record config := mkConfig { g_object : Z; g_freq : Z; g_chan : Z; g_frame : bool; g_core : option Z; g_ext : bool; g_more : list bool }.
Definition config_syntax (g : config) : list bool :=
  field_bits (g_object g) 5 ++ field_bits (g_freq g) 4 ++ field_bits (g_chan g) 4
  ++ g_frame g :: (match g_core g with None => [false] | Some d => true :: field_bits d 14 end) ++ g_ext g :: g_more g.
Definition config_ok (g : config) : Prop :=
  0 <= g_object g < 31 /\ 0 <= g_freq g < 13 /\ 0 <= g_chan g < 8 /\ given (is_u 14) (g_core g).
(** ES_Descriptor: dependsOn_ES_ID, URL, OCR_ES_Id; the number of bytes of the four sizes; the
    DecoderConfigDescriptor with its DecoderSpecificInfo; SLConfigDescriptor with predefined 1 or
    2; other descriptors *)
Record es := mkEs {
  e_id : Z; e_depends : option Z; e_url : option (list Z); e_ocr : option Z; e_priority : Z; e_sizes : nat * nat * nat * nat;
  e_type : Z; e_stream : Z; e_up : bool; e_buffer : Z; e_max : Z; e_avg : Z; e_info : list Z; e_sl : Z; e_more : list Z }.
Definition some {A} (o : option A) : Z := match o with Some _ => 1 | None => 0 end.
Definition opt_bytes {A} (f : A -> list Z) (o : option A) : list Z := match o with Some v => f v | None => [] end.
Definition dcd_body (k5 : nat) (x : es) : list Z :=
  [e_type x; 4 * e_stream x + 2 * (if e_up x then 1 else 0) + 1] ++ big 3 (e_buffer x) ++ big 4 (e_max x) ++ big 4 (e_avg x) ++ desc 5 k5 (e_info x).
Definition es_body (k4 k5 k6 : nat) (x : es) : list Z :=
  big 2 (e_id x) ++ [128 * some (e_depends x) + 64 * some (e_url x) + 32 * some (e_ocr x) + e_priority x]
  ++ opt_bytes (big 2) (e_depends x) ++ opt_bytes (fun u => Z.of_nat (length u) :: u) (e_url x) ++ opt_bytes (big 2) (e_ocr x)
  ++ desc 4 k4 (dcd_body k5 x) ++ desc 6 k6 [e_sl x] ++ e_more x.
Definition es_bytes (x : es) : list Z := let '(k3, k4, k5, k6) := e_sizes x in desc 3 k3 (es_body k4 k5 k6 x).
Definition size_ok (k : nat) (n : nat) : Prop := (1 <= k <= 4)%nat /\ Z.of_nat n < 2 ^ (7 * Z.of_nat k).
Definition es_ok (x : es) : Prop :=
  (let '(k3, k4, k5, k6) := e_sizes x in
   size_ok k3 (length (es_body k4 k5 k6 x)) /\ size_ok k4 (length (dcd_body k5 x)) /\ size_ok k5 (length (e_info x)) /\ size_ok k6 1)
  /\ is_u 16 (e_id x) /\ given (is_u 16) (e_depends x) /\ given (fun u => bytes u /\ Z.of_nat (length u) < 256) (e_url x) /\ given (is_u 16) (e_ocr x)
  /\ is_u 5 (e_priority x) /\ is_byte (e_type x) /\ is_u 6 (e_stream x) /\ is_u 24 (e_buffer x) /\ is_u 32 (e_max x) /\ is_u 32 (e_avg x)
  /\ bytes (e_info x) /\ (e_sl x = 1 \/ e_sl x = 2) /\ bytes (e_more x).
(** the box: size, type, version and flags *)
Definition esds_bytes (d : list Z) : list Z := big 4 (12 + Z.of_nat (length d)) ++ [101; 115; 100; 115] ++ [0; 0; 0; 0] ++ d.
