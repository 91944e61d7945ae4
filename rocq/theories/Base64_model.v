(** Model of src/b64/src/cencode.cpp and src/b64/src/cdecode.cpp (libb64).

    A C [char] is signed in the platforms the project targets.  Bytes of plain
    text and code text are represented by their unsigned value 0..255; this is
    exact because every use masks the promoted int with a constant below 256,
    except [base64_decode_value], which compares signed values and is modelled
    with the explicit signed wrap. *)
From Verif Require Import Util.

(** cencode.cpp l.42: the table [encoding]. *)
Definition encoding : list Z :=
  (* ABCDEFGHIJKLMNOPQRSTUVWXYZ *)
  [65;66;67;68;69;70;71;72;73;74;75;76;77;78;79;80;81;82;83;84;85;86;87;88;89;90;
  (* abcdefghijklmnopqrstuvwxyz *)
   97;98;99;100;101;102;103;104;105;106;107;108;109;110;111;112;113;114;115;116;117;118;119;120;121;122;
  (* 0123456789+/ *)
   48;49;50;51;52;53;54;55;56;57;43;47].

(** cencode.cpp l.40-45 base64_encode_value.  A negative [char] would index
    before the table: that is [None] (undefined behaviour).  The string literal
    has a trailing NUL at index 64, unreachable because of the test. *)
Definition encode_value (v : Z) : option Z :=
  if 63 <? v then Some 61 (* '=' *)
  else if v <? 0 then None
  else nth_error encoding (Z.to_nat v).

(** include/cencode.h: enum step_A, step_B, step_C. *)
Inductive estep := EA | EB | EC.
(** include/cencode.h: struct base64_encodestate { step; result; stepcount }. *)
Record estate := mkE { e_step : estep; e_result : Z; e_count : Z }.

(** cencode.cpp l.33-38 base64_init_encodestate *)
Definition enc_init : estate := mkE EA 0 0.

(** cencode.cpp l.31 CHARS_PER_LINE *)
Definition CHARS_PER_LINE : Z := 100000.

(** cencode.cpp l.47-106 base64_encode_block.  The switch-into-while machine:
    each iteration consumes one plain char in the current step.  The list
    recursion is the [plainchar == plaintextend] test.  Result: characters
    written and the saved state; [None] = undefined behaviour. *)
Fixpoint encode_block (inp : list Z) (st : estate) : option (list Z * estate) :=
  match inp with
  | [] => Some ([], st)
  | fragment :: rest =>
    match e_step st with
    | EA => (* l.68-71 *)
      let r1 := Z.shiftr (Z.land fragment 252) 2 in
      match encode_value r1 with None => None | Some c1 =>
      let r2 := Z.shiftl (Z.land fragment 3) 4 in
      match encode_block rest (mkE EB r2 (e_count st)) with
      | None => None | Some (out, st') => Some (c1 :: out, st') end end
    | EB => (* l.79-82 *)
      let r1 := Z.lor (e_result st) (Z.shiftr (Z.land fragment 240) 4) in
      match encode_value r1 with None => None | Some c1 =>
      let r2 := Z.shiftl (Z.land fragment 15) 2 in
      match encode_block rest (mkE EC r2 (e_count st)) with
      | None => None | Some (out, st') => Some (c1 :: out, st') end end
    | EC => (* l.90-101 *)
      let r1 := Z.lor (e_result st) (Z.shiftr (Z.land fragment 192) 6) in
      match encode_value r1 with None => None | Some c1 =>
      let r2 := Z.shiftr (Z.land fragment 63) 0 in
      match encode_value r2 with None => None | Some c2 =>
      let k := e_count st + 1 in
      let k' := if k =? CHARS_PER_LINE / 4 then 0 else k in
      match encode_block rest (mkE EA r2 k') with
      | None => None | Some (out, st') => Some (c1 :: c2 :: out, st') end end end
    end
  end.

(** cencode.cpp l.108-129 base64_encode_blockend *)
Definition encode_blockend (st : estate) : option (list Z) :=
  match e_step st with
  | EB => match encode_value (e_result st) with None => None | Some c => Some [c; 61; 61] end
  | EC => match encode_value (e_result st) with None => None | Some c => Some [c; 61] end
  | EA => Some []
  end.

(** A caller encoding a stream: one base64_encode_block call per chunk, then
    base64_encode_blockend (usage pattern of mgcli/cenc_provider.h l.155-166). *)
Fixpoint encode_calls (chunks : list (list Z)) (st : estate) : option (list Z) :=
  match chunks with
  | [] => encode_blockend st
  | c :: cs =>
    match encode_block c st with
    | None => None
    | Some (out, st') =>
      match encode_calls cs st' with None => None | Some more => Some (out ++ more) end
    end
  end.
Definition encode (chunks : list (list Z)) : option (list Z) := encode_calls chunks enc_init.

(** cdecode.cpp l.34 the table [decoding] *)
Definition decoding : list Z :=
 [62;-1;-1;-1;63;52;53;54;55;56;57;58;59;60;61;-1;-1;-1;-2;-1;-1;-1;0;1;2;3;4;5;6;7;8;9;10;11;12;13;14;15;16;17;18;19;20;21;22;23;24;25;-1;-1;-1;-1;-1;-1;26;27;28;29;30;31;32;33;34;35;36;37;38;39;40;41;42;43;44;45;46;47;48;49;50;51].

(** value of an 8-bit pattern as signed char *)
Definition schar (x : Z) : Z := (x + 128) mod 256 - 128.

(** cdecode.cpp l.32-39 base64_decode_value on the char with unsigned value
    [c]; [None] = read past the end of the table (undefined behaviour). *)
Definition decode_value (c : Z) : option Z :=
  let v := schar (schar c - 43) in
  if (v <? 0) || (zlen decoding <? v) then Some (-1)
  else nth_error decoding (Z.to_nat v).

(** include/cdecode.h: enum step_a..step_d, struct base64_decodestate. *)
Inductive dstep := Da | Db | Dc | Dd.
Record dstate := mkD { d_step : dstep; d_plain : Z }.
(** cdecode.cpp l.41-45 *)
Definition dec_init : dstate := mkD Da 0.

(** cdecode.cpp l.47-109 base64_decode_block, one code char per recursion
    step; [d_plain] is the value of [*plainchar].  After step_d the next
    [*plainchar] is whatever the output memory holds ([junk]); the code saves
    it in the state but overwrites it in step_a.  Characters whose value is
    negative are skipped by the do-while loops. *)
Section Decode.
Variable junk : Z.
Fixpoint decode_block (code : list Z) (st : dstate) : option (list Z * dstate) :=
  match code with
  | [] => Some ([], st)
  | c :: rest =>
    match decode_value c with
    | None => None
    | Some f =>
      if f <? 0 then decode_block rest st
      else match d_step st with
      | Da => decode_block rest (mkD Db (Z.shiftl (Z.land f 63) 2 mod 256))
      | Db => let done := Z.lor (d_plain st) (Z.shiftr (Z.land f 48) 4) in
              match decode_block rest (mkD Dc (Z.shiftl (Z.land f 15) 4 mod 256)) with
              | None => None | Some (o, s) => Some (done :: o, s) end
      | Dc => let done := Z.lor (d_plain st) (Z.shiftr (Z.land f 60) 2) in
              match decode_block rest (mkD Dd (Z.shiftl (Z.land f 3) 6 mod 256)) with
              | None => None | Some (o, s) => Some (done :: o, s) end
      | Dd => let done := Z.lor (d_plain st) (Z.land f 63) in
              match decode_block rest (mkD Da junk) with
              | None => None | Some (o, s) => Some (done :: o, s) end
      end
    end
  end.

(** A caller decoding a stream: one base64_decode_block per chunk. *)
Fixpoint decode_calls (chunks : list (list Z)) (st : dstate) : option (list Z) :=
  match chunks with
  | [] => Some []
  | c :: cs =>
    match decode_block c st with
    | None => None
    | Some (o, s) => match decode_calls cs s with None => None | Some m => Some (o ++ m) end
    end
  end.
Definition decode (chunks : list (list Z)) : option (list Z) := decode_calls chunks dec_init.
End Decode.
