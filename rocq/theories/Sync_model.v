(** Files read and written synchronously: sync_file_bitstream, /repo/src/mg/core/file.h 177-290, over the C
    library (fopen with "rb" and "wb", fread, fwrite, fseek, feof, with a long of 64 bits), and the
    encryption of a segment in its file, hls_encrypt, /repo/src/mg/media/tsinfo.cpp 594-635.
    Not modelled: errors of the system; a file changed by others; the buffer of the callbacks. *)
From Verif Require Import Util HlsCrypt_model.
Local Open Scope Z_scope.

(** the bytes of the file, the position and the end-of-file mark of the stream, and _size *)
Record sfile := mkF { f_bytes : list Z; f_pos : Z; f_end : bool; f_size : Z }.
(** open 193-208: "wb" empties the file before it is asked for its size *)
Definition open_file (content : list Z) (read : bool) : sfile := if read then mkF content 0 false (zlen content) else mkF [] 0 false 0.
(** read 218-232: fread of [n] bytes: those there are; the mark is set when there are fewer *)
Definition fread (f : sfile) (n : Z) : sfile * list Z :=
  let got := firstn (Z.to_nat n) (skipn (Z.to_nat (f_pos f)) (f_bytes f)) in
  (mkF (f_bytes f) (f_pos f + zlen got) (f_end f || (zlen got <? n)) (f_size f), got).
(** eof 234-236 *)
Definition eof (f : sfile) : bool := f_end f.
(** write 238-250: fwrite; between the end and the position are zeros *)
Definition fwrite (f : sfile) (l : list Z) : sfile :=
  let p := Z.to_nat (f_pos f) in
  let old := f_bytes f ++ repeat 0 (p - length (f_bytes f)) in
  match l with
  | [] => f
  | _ => mkF (firstn p old ++ l ++ skipn (p + length l) old) (f_pos f + zlen l) (f_end f) (f_size f)
  end.
(** get_position 257 *)
Definition get_position (f : sfile) : Z := f_pos f.
(** set_position 259-261: the position is cut to 32 bits; fseek takes the mark away *)
Definition set_position (f : sfile) (p : Z) : sfile := mkF (f_bytes f) (p mod 2 ^ 32) false (f_size f).
(** size 276-279 *)
Definition size (f : sfile) : Z := f_size f.
Fixpoint freads (f : sfile) (l : list Z) : sfile * list (list Z) :=
  match l with [] => (f, []) | n :: l => let '(f, got) := fread f n in let '(f, r) := freads f l in (f, got :: r) end.
Definition fwrites (f : sfile) (l : list (list Z)) : sfile := fold_left fwrite l f.

(** hls_encrypt 594-635: what it returns and the file after it.  [junk]: the new buffer for the encrypted
    bytes.  None: bytes of the other new buffer which nothing was read into are used (600-604: what is
    asked to be read is cut to 32 bits). *)
Definition hls_encrypt (E : list Z -> list Z) (content junk : list Z) (sequence : Z) : option (Z * list Z) :=
  let inf := open_file content true in
  let n := enc_size (size inf) in
  let '(_, clear) := fread inf (n mod 2 ^ 32) in
  if zlen clear <? size inf then None else
  match hls3_encrypt E junk n clear sequence with
  | Encrypted dest n => Some (0, f_bytes (fwrite (open_file content false) (firstn (Z.to_nat (n mod 2 ^ 32)) dest)))
  | _ => Some (7, content)
  end.

(** * Specification vocabulary *)
Definition all_of (l : list Z) : Z := fold_right Z.add 0 l.
(** [content] with the bytes from [p] on replaced by [l] *)
Definition replaced (content : list Z) (p : nat) (l : list Z) : list Z := firstn p content ++ l ++ skipn (p + length l) content.
