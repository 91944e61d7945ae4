(** Model of the program specific information sections:
    writing  /repo/src/mg/media/tswrite.h 304-393, 569-612, 624-655 (fill_pid);
    layout   /repo/src/mg/media/mp4/mpeg2ts.fl 1078-1253, 273-286;
    reading  /repo/src/mg/media/ts.h 234-302, 304-500. *)
From Verif Require Import Util Bits_spec TsTime_model Ts_model Crc_model.
Local Open Scope Z_scope.

(** mpeg2ts.fl 1090-1107 with tswrite.h 306-318 (init_base).  [r2] is reserved2, which the
    writer leaves uninitialised. *)
Definition base_fields (r2 table_id section_length id : Z) : list (Z * nat) :=
  [(table_id, 8%nat); (1, 1%nat); (0, 1%nat); (0, 2%nat); (section_length, 12%nat); (id, 16%nat);
   (r2, 2%nat); (0, 5%nat); (1, 1%nat); (0, 8%nat); (0, 8%nat)].
(** mpeg2ts.fl 1117-1131; [r3] is reserved3, not initialised in the PAT *)
Definition pat_fields (r2 r3 : Z) (programs : list (Z * Z)) (crc : Z) : list (Z * nat) :=
  base_fields r2 0 (9 + 4 * zlen programs) 1
  ++ flat_map (fun p => [(fst p, 16%nat); (r3, 3%nat); (snd p, 13%nat)]) programs ++ [(crc, 32%nat)].
(** mpeg2ts.fl 1176-1250 with tswrite.h 346-366, 376-383: no descriptors *)
Definition pmt_fields (r2 id pcr_pid : Z) (streams : list (Z * Z)) (crc : Z) : list (Z * nat) :=
  base_fields r2 2 (13 + 5 * zlen streams) id ++ [(0, 3%nat); (pcr_pid, 13%nat); (0, 4%nat); (0, 12%nat)]
  ++ flat_map (fun s => [(fst s, 8%nat); (0, 3%nat); (snd s, 13%nat); (0, 4%nat); (0, 12%nat)]) streams ++ [(crc, 32%nat)].

(** tswrite.h 569-593: pointer field, section with CRC 0, then the CRC of the
    section_length + 3 - 4 bytes after the pointer field is written over the last four
    bytes.  [align] is the address of the buffer modulo 4. *)
Definition with_crc (align : nat) (section_length : Z) (buf : list Z) : list Z :=
  let crc := crc_32 align (firstn (Z.to_nat (section_length + 3 - 4)) (skipn 1 buf)) 0xFFFFFFFF in
  firstn (length buf - 4) buf ++ pack [(crc, 32%nat)].
Definition write_pat (align : nat) (r2 r3 : Z) (programs : list (Z * Z)) : list Z :=
  with_crc align (9 + 4 * zlen programs) (pack ((0, 8%nat) :: pat_fields r2 r3 programs 0)).
Definition write_pmt (align : nat) (r2 id pcr_pid : Z) (streams : list (Z * Z)) : list Z :=
  with_crc align (13 + 5 * zlen streams) (pack ((0, 8%nat) :: pmt_fields r2 id pcr_pid streams 0)).

(** * Reading *)
(** BaseSection::get: table_id, section_length, id *)
Definition get_base : reader (Z * Z * Z) :=
  t <- get 8 ;; _ <- get 4 ;; l <- get 12 ;; i <- get 16 ;; _ <- get 24 ;; ret (t, l, i).
(** Pointer_Field::get *)
Definition get_pointer : reader unit := n <- get 8 ;; skip (Z.to_nat n).
(** Program_Association_Section::get: (number, pid) pairs and the CRC.  The count is
    unsigned: (section_length - 9)/4 wraps for lengths below 9. *)
Fixpoint get_programs (n : nat) : reader (list (Z * Z)) :=
  match n with O => ret [] | S k => a <- get 16 ;; _ <- get 3 ;; b <- get 13 ;; r <- get_programs k ;; ret ((a, b) :: r) end.
Definition pat_count (section_length : Z) : nat := Z.to_nat (((section_length - 9) mod 2 ^ 32) / 4).
Definition get_pat : reader (list (Z * Z) * Z) :=
  h <- get_base ;; (let '(_, l, _) := h in ps <- get_programs (pat_count l) ;; c <- get 32 ;; ret (ps, c)).
(** mpeg2ts.fl 273-286: a descriptor, tag and content; [n] bounds the bytes left *)
Fixpoint get_bytes (n : nat) : reader (list Z) :=
  match n with O => ret [] | S k => b <- get 8 ;; r <- get_bytes k ;; ret (b :: r) end.
Definition get_descriptor : reader (Z * list Z) := t <- get 8 ;; n <- get 8 ;; d <- get_bytes (Z.to_nat n) ;; ret (t, d).
(** mpeg2ts.fl 1190-1203 and 1228-1242: descriptors until their bytes reach [total] *)
Fixpoint get_descriptors (fuel : nat) (total : Z) : reader (list (Z * list Z)) :=
  if total <=? 0 then ret [] else
  match fuel with
  | O => fail
  | S k => d <- get_descriptor ;; r <- get_descriptors k (total - (zlen (snd d) + 2)) ;; ret (d :: r)
  end.
(** mpeg2ts.fl 1208-1249: streams until their bytes reach [total]; (type, pid, descriptors) *)
Fixpoint get_streams (fuel : nat) (total : Z) : reader (list (Z * Z * list (Z * list Z))) :=
  if total <=? 0 then ret [] else
  match fuel with
  | O => fail
  | S k => t <- get 8 ;; _ <- get 3 ;; p <- get 13 ;; _ <- get 4 ;; n <- get 12 ;;
           ds <- get_descriptors (Z.to_nat n) n ;; r <- get_streams k (total - (5 + n)) ;; ret ((t, p, ds) :: r)
  end.
Record pmt := mkpmt { m_id : Z; m_pcr : Z; m_info : list (Z * list Z); m_streams : list (Z * Z * list (Z * list Z)); m_crc : Z }.
Definition get_pmt : reader pmt :=
  h <- get_base ;; (let '(_, l, i) := h in
  _ <- get 3 ;; pcr <- get 13 ;; _ <- get 4 ;; n <- get 12 ;;
  info <- get_descriptors (Z.to_nat n) n ;;
  ss <- get_streams (Z.to_nat 4096) ((l - 13 - n) mod 2 ^ 32) ;;   (* at most 4096/5 streams; the count is unsigned *)
  c <- get 32 ;; ret (mkpmt i pcr info ss c)).

(** ts.h 255-302 (psi::process): the payload gathered so far *)
Inductive psi_result (A : Type) := Waiting | EndOfDataThrown | Table (x : A) (crc_computed : Z).
Arguments Waiting {A}. Arguments EndOfDataThrown {A}. Arguments Table {A}.
Definition psi_process {A} (align : nat) (table_id : Z) (readTable : reader A) (payload : list Z) : psi_result A :=
  match (_ <- get_pointer ;; get_base) (bytes_bits payload) with
  | None => EndOfDataThrown
  | Some ((t, l, _), _) =>
    if negb (t =? table_id) then Waiting else
    if zlen payload <? l then Waiting else
    let crc := crc_32 align (firstn (Z.to_nat (l + 3 - 4)) (skipn 1 payload)) 0xFFFFFFFF in
    match (_ <- get_pointer ;; readTable) (bytes_bits payload) with
    | None => EndOfDataThrown
    | Some (x, _) => Table x crc
    end
  end.

(** ts.h 398-410 (GetElementaryType), 442-455, 457-468 *)
Fixpoint elementary_type (pid : Z) (l : list (Z * Z * list (Z * list Z))) : option Z :=
  match l with [] => None | (t, p, _) :: r => if p =? pid then Some t else elementary_type pid r end.
Definition is_video_type (t : Z) : bool := (t =? 1) || (t =? 2).

(** tswrite.h 624-655 (fill_pid): the counter is an unsigned char, at most 15 rounds *)
Fixpoint fill_loop (fuel : nat) (pid cc : Z) : option (list (list Z) * Z) :=
  if Z.land 0x0F cc =? 0 then Some ([], cc) else
  match fuel with
  | O => None
  | S k => match fill_loop k pid ((cc + 1) mod 256) with
           | None => None
           | Some (l, c) => Some (put_packet 0 pid cc (Some (mkadapt 183 0 None)) [] :: l, c)
           end
  end.
Definition fill_pid (pid cc : Z) : option (list (list Z) * Z) := fill_loop 16 pid cc.

(** ts.h 124-175 with 93-101 and 255-302: the section reader fed with the packets of its PID.
    [None] once an exception has left it (the accumulated bytes stay). *)
Definition psi_add {A} (align : nat) (table_id : Z) (readTable : reader A) (payload : list Z) (t : tp) : list Z * list (psi_result A) :=
  if t_tei t =? 1 then (payload, []) else
  let base := if t_pusi t =? 1 then [] else payload in
  let p := if t_pay t =? 1 then base ++ t_payload t else base in
  (p, [psi_process align table_id readTable p]).
Fixpoint psi_feed {A} (align : nat) (table_id : Z) (readTable : reader A) (payload : list Z) (l : list tp) : list (psi_result A) :=
  match l with
  | [] => []
  | t :: r => let '(p, e) := psi_add align table_id readTable payload t in e ++ psi_feed align table_id readTable p r
  end.

(** * Specification vocabulary: ISO 13818-1 section layout. *)
Definition be16 (v : Z) : list Z := [v / 256; v mod 256].
(** a long-form section without its CRC: table, four flag bits, length of what follows the
    length field (five header bytes, body, four CRC bytes), identifier, version byte,
    section numbers *)
Definition iso_section (table flags id version first last : Z) (body : list Z) : list Z :=
  table :: be16 (flags * 4096 + (5 + zlen body + 4)) ++ be16 id ++ [version; first; last] ++ body.
(** a program of the PAT: number, reserved bits, PID *)
Definition iso_program (r : Z) (p : Z * Z) : list Z := be16 (fst p) ++ be16 (r * 8192 + snd p).
(** descriptors: tag, length, content *)
Definition iso_descriptors (ds : list (Z * list Z)) : list Z := flat_map (fun d => fst d :: zlen (snd d) :: snd d) ds.
(** a stream of the PMT: type, PID, descriptors *)
Definition iso_stream (r1 r2 : Z) (s : Z * Z * list (Z * list Z)) : list Z :=
  let '(t, p, ds) := s in t :: be16 (r1 * 8192 + p) ++ be16 (r2 * 4096 + zlen (iso_descriptors ds)) ++ iso_descriptors ds.
Definition iso_pmt_body (r1 r2 pcr : Z) (info : list (Z * list Z)) (streams : list (Z * Z * list (Z * list Z))) : list Z :=
  be16 (r1 * 8192 + pcr) ++ be16 (r2 * 4096 + zlen (iso_descriptors info)) ++ iso_descriptors info ++ flat_map (iso_stream r1 r2) streams.
(** values that fit their fields *)
Definition pid_ok (p : Z) : Prop := 0 <= p < 8192.
Definition w16 (v : Z) : Prop := 0 <= v < 65536.
Definition descriptors_ok (ds : list (Z * list Z)) : Prop := Forall (fun d => is_byte (fst d) /\ bytes (snd d) /\ zlen (snd d) < 256) ds /\ zlen (iso_descriptors ds) < 4096.
Definition stream_ok (s : Z * Z * list (Z * list Z)) : Prop := let '(t, p, ds) := s in is_byte t /\ pid_ok p /\ descriptors_ok ds.
