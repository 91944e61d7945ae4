(** Model of the mp4 box writer CMP4W (/repo/src/mg/media/mp4write.h 73-194) and of the box reader
    CMP4 (/repo/src/mg/media/mp4parse.h 284-324, 547-600; the Box class of media/mp4/mp4.fl 95-171).
    The bit stream under them is a list of bytes with a position: all the fields are whole bytes,
    and the bit stream itself is modelled in Bitstream_model.  Writing before the end replaces
    bytes.  Reading past the end is None. *)
From Verif Require Import Util SampleTab_model.
Local Open Scope Z_scope.

(** a number as [n] bytes, most significant first (putbits) *)
Fixpoint be (n : nat) (x : Z) : list Z := match n with O => [] | S k => be k (x / 256) ++ [x mod 256] end.
Definition be32 (x : Z) : list Z := be 4 x.
Fixpoint be_val (acc : Z) (l : list Z) : Z := match l with [] => acc | b :: l => be_val (acc * 256 + b) l end.

(** * The writer *)
(** the file, the position and _parents (types and positions) *)
Record wr := mkW { w_file : list Z; w_pos : Z; w_parents : list (Z * Z) }.
(** IBitstream3::write / putbits at the position *)
Definition put (bs : list Z) (w : wr) : wr :=
  mkW (firstn (Z.to_nat (w_pos w)) (w_file w) ++ bs ++ skipn (Z.to_nat (w_pos w) + length bs) (w_file w)) (w_pos w + zlen bs) (w_parents w).
Definition seek (p : Z) (w : wr) : wr := mkW (w_file w) p (w_parents w).
(** write_child_box 104-125; [body]: what box.put writes *)
Definition child_box (type : Z) (body : list Z) (w : wr) : wr :=
  let init := w_pos w in
  let w := put body (put (be32 type) (put (be32 4294967295) w)) in
  let end_ := w_pos w in
  let size := end_ - init in
  seek end_ (put (be32 (u32 size)) (seek init w)).
(** open_box 127-135 *)
Definition open_box (type : Z) (w : wr) : wr :=
  let bp := (type, w_pos w) in
  let w := put (be32 type) (put (be32 4294967295) w) in
  mkW (w_file w) (w_pos w) (bp :: w_parents w).
(** close_box 137-152; None: nothing is open *)
Definition close_box (w : wr) : option wr :=
  match w_parents w with
  | [] => None
  | (_, start) :: rest =>
    let end_ := w_pos w in
    let size := end_ - start in
    let w := seek end_ (put (be32 (u32 size)) (seek start w)) in
    Some (mkW (w_file w) (w_pos w) rest)
  end.

(** * The reader *)
(** _current_box, _box_position and the position *)
Record rd := mkR { r_pos : Z; r_box : Z; r_size : Z; r_type : Z }.
(** getbits: [n] bytes at [p] *)
Definition bytes_at (f : list Z) (p : Z) (n : nat) : option (list Z) :=
  let s := firstn n (skipn (Z.to_nat p) f) in
  if (0 <=? p) && (length s =? n)%nat then Some s else None.
Definition num_at (f : list Z) (p : Z) (n : nat) : option Z := match bytes_at f p n with Some l => Some (be_val 0 l) | None => None end.
Definition uuid : Z := 1970628964.
(** Box::get and get_size (mp4.fl 100-131, 154-167): size, type and position after the header *)
Definition parse_box (f : list Z) (p : Z) : option (Z * Z * Z) :=
  match num_at f p 4, num_at f (p + 4) 4 with
  | Some size, Some type =>
    match (if size =? 1 then match num_at f (p + 8) 4, num_at f (p + 12) 4 with Some x, Some y => Some (x * 2 ^ 32 + y, p + 16) | _, _ => None end else Some (size, p + 8)) with
    | Some (s, q) => if type =? uuid then match bytes_at f q 16 with Some _ => Some (u64 (s - 16), type, q + 16) | None => None end else Some (s, type, q)
    | None => None
    end
  | _, _ => None
  end.
(** do_box 547-559 *)
Definition do_box (f : list Z) (p : Z) : option rd := match parse_box f p with Some (s, t, q) => Some (mkR q p s t) | None => None end.
(** skipbytes 290-309 while the end is not reached: the bits skipped, 31 at a time *)
Fixpoint skip_loop (fuel : nat) (todo : Z) : Z := match fuel with O => 0 | S k => if 31 <? todo then 31 + skip_loop k (todo - 31) else if 0 <? todo then todo else 0 end.
Definition skipbytes (n : Z) : Z := let todo := u64 (n * 8) in skip_loop (S (Z.to_nat (todo / 31))) todo.
(** skip_current 576-580; the position is a byte position again when the bits are whole bytes *)
Definition skip_current (b : rd) : Z := r_pos b + skipbytes (r_size b - 8) / 8.
(** get_box_position_end 585 *)
Definition box_end (b : rd) : Z := r_box b + r_size b.

(** * Specification vocabulary *)
(** Boxes: a type, and bytes or boxes inside (ISO/IEC 14496-12, 4.2). *)
Inductive item := Raw (bs : list Z) | Leaf (type : Z) (body : list Z) | Node (type : Z) (kids : list item).
(** as bytes: a box is its size, its type and what it holds *)
Fixpoint layout (i : item) : list Z :=
  match i with
  | Raw bs => bs
  | Leaf t body => be32 (8 + zlen body) ++ be32 t ++ body
  | Node t kids => let inside := concat (map layout kids) in be32 (8 + zlen inside) ++ be32 t ++ inside
  end.
(** every box has a size of 32 bits *)
Fixpoint fits (i : item) : Prop :=
  match i with
  | Raw _ => True
  | Leaf _ body => 8 + zlen body < 2 ^ 32
  | Node _ kids => 8 + zlen (concat (map layout kids)) < 2 ^ 32 /\ (fix all (l : list item) : Prop := match l with [] => True | k :: l => fits k /\ all l end) kids
  end.
(** writing it: the calls on the writer *)
Fixpoint write (i : item) (w : wr) : option wr :=
  match i with
  | Raw bs => Some (put bs w)
  | Leaf t body => Some (child_box t body w)
  | Node t kids => match (fix all (l : list item) (w : wr) : option wr := match l with [] => Some w | k :: l => match write k w with Some w => all l w | None => None end end) kids (open_box t w) with
                   | Some w => close_box w
                   | None => None
                   end
  end.
Fixpoint write_all (l : list item) (w : wr) : option wr := match l with [] => Some w | i :: l => match write i w with Some w => write_all l w | None => None end end.
(** positioned at the end of what is written *)
Definition at_end (w : wr) : Prop := w_pos w = zlen (w_file w).
(** an independent reader: bytes that are boxes following each other, with their types *)
Inductive boxes : list Z -> list (Z * list Z) -> Prop :=
| boxes_nil : boxes [] []
| boxes_cons : forall size type body rest l, length size = 4%nat -> length type = 4%nat -> be_val 0 size = 8 + zlen body -> boxes rest l -> boxes (size ++ type ++ body ++ rest) ((be_val 0 type, body) :: l).
