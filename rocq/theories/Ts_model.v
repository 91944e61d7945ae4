(** Model of the MPEG-2 transport stream writer and reader:
    PES headers    /repo/src/mg/media/tswrite.h 127-246, mp4/mpeg2ts.fl 558-875;
    TS packets out /repo/src/mg/media/tswrite.h 276-302, 395-567, mpeg2ts.fl 899-997, 1255-1311;
    TS packets in  mpeg2ts.fl 899-997, 1255-1311, /repo/src/mg/media/ts.h 57-234;
    PES reassembly /repo/src/mg/media/ts.h 531-737.
    Bit fields are written most significant bit first and cut to their width
    (Bitstream_model, putbits). *)
From Verif Require Import Util Bits_spec TsTime_model.
Local Open Scope Z_scope.

(** bits to bytes *)
Fixpoint to_bytes (bs : list bool) : list Z :=
  match bs with
  | a :: b :: c :: d :: e :: f :: g :: h :: r => bits_val [a; b; c; d; e; f; g; h] :: to_bytes r
  | _ => []
  end.
(** putbits(v, n) one after the other, starting on a byte boundary *)
Definition pack (fs : list (Z * nat)) : list Z := to_bytes (flat_map (fun f => field_bits (fst f) (snd f)) fs).

Definition b2z (b : bool) : Z := if b then 1 else 0.
Definition present {A} (o : option A) : bool := match o with Some _ => true | None => false end.

(** * PES header *)
Definition MAX_PES_SIZE := 65535.                                  (* tswrite.h 27 *)
(** tswrite.h 133-165, 174-220: PES_header_data_length and PES_packet_length (None is
    UINT64_MAX, no time) *)
Definition header_data_length (pts dts escr : option Z) : Z := 5 * b2z (present pts) + 5 * b2z (present dts) + 6 * b2z (present escr).
Definition packet_length (pts dts escr : option Z) (body : Z) : Z :=
  if (body =? 0) || (MAX_PES_SIZE <=? body) then 0 else 3 + header_data_length pts dts escr + body.
(** mpeg2ts.fl 691-715 *)
Definition stamp_fields (check : Z) (t : option Z) : list (Z * nat) :=
  match t with
  | None => []
  | Some t => let c := ToMpegTime t in
      [(check, 4%nat); (c32_30 c, 3%nat); (1, 1%nat); (c29_15 c, 15%nat); (1, 1%nat); (c14_0 c, 15%nat); (1, 1%nat)]
  end.
(** mpeg2ts.fl 717-730; [r] and [mk] are the members reserved and marker_bit, which the
    writer does not initialise *)
Definition escr_fields (r mk : Z) (t : option Z) : list (Z * nat) :=
  match t with
  | None => []
  | Some t => let c := ToMpegTime t in
      [(r, 2%nat); (c32_30 c, 3%nat); (1, 1%nat); (c29_15 c, 15%nat); (1, 1%nat); (c14_0 c, 15%nat); (1, 1%nat); (cext c, 9%nat); (mk, 1%nat)]
  end.
(** tswrite.h 224-244 with mpeg2ts.fl 558-564, 670-686 *)
Definition pes_header (r mk sid : Z) (pts dts escr : option Z) (body : Z) : list Z :=
  pack ([(1, 24%nat); (sid, 8%nat); (packet_length pts dts escr body, 16%nat);
         (2, 2%nat); (0, 2%nat); (0, 1%nat); (0, 1%nat); (0, 1%nat); (0, 1%nat);
         (b2z (present pts), 1%nat); (b2z (present dts), 1%nat); (b2z (present escr), 1%nat);
         (0, 1%nat); (0, 1%nat); (0, 1%nat); (0, 1%nat); (0, 1%nat); (header_data_length pts dts escr, 8%nat)]
        ++ stamp_fields (2 + b2z (present dts)) pts ++ stamp_fields 1 dts ++ escr_fields r mk escr).

(** Reading (PesData::get).  [None] = EndOfData.  Simplified: of the optional fields only
    PTS, DTS and ESCR are modelled; a header with other fields is [None] too. *)
Record pes := mkpes { p_sid : Z; p_len : Z; p_hlen : Z;
  p_pts : option (Z * Z * Z); p_dts : option (Z * Z * Z); p_escr : option (Z * Z * Z * Z) }.
Definition reader (A : Type) := list bool -> option (A * list bool).
Definition get (n : nat) : reader Z := fun bs => if Nat.ltb (length bs) n then None else Some (bits_val (firstn n bs), skipn n bs).
Definition ret {A} (x : A) : reader A := fun bs => Some (x, bs).
Definition bind {A B} (p : reader A) (f : A -> reader B) : reader B :=
  fun bs => match p bs with None => None | Some (x, r) => f x r end.
Notation "x <- p ;; q" := (bind p (fun x => q)) (at level 61, p at next level, right associativity).
Definition fail {A} : reader A := fun _ => None.
Fixpoint skip (n : nat) : reader unit := match n with O => ret tt | S k => _ <- get 8 ;; skip k end.
(** mpeg2ts.fl 691-715 *)
Definition get_stamp : reader (Z * Z * Z) :=
  _ <- get 4 ;; a <- get 3 ;; _ <- get 1 ;; b <- get 15 ;; _ <- get 1 ;; c <- get 15 ;; _ <- get 1 ;; ret (a, b, c).
Definition get_escr : reader (Z * Z * Z * Z) :=
  _ <- get 2 ;; a <- get 3 ;; _ <- get 1 ;; b <- get 15 ;; _ <- get 1 ;; c <- get 15 ;; _ <- get 1 ;; e <- get 9 ;; _ <- get 1 ;; ret (a, b, c, e).
Definition when {A} (b : Z) (p : reader A) : reader (option A) := if b =? 1 then x <- p ;; ret (Some x) else ret None.
Definition get_pes : reader pes :=
  _ <- get 24 ;; sid <- get 8 ;; len <- get 16 ;;
  _ <- get 2 ;; _ <- get 2 ;; _ <- get 1 ;; _ <- get 1 ;; _ <- get 1 ;; _ <- get 1 ;;
  fp <- get 1 ;; fd <- get 1 ;; fe <- get 1 ;; others <- get 5 ;; hlen <- get 8 ;;
  if negb (others =? 0) then fail else
  pts <- when fp get_stamp ;; dts <- when fd get_stamp ;; escr <- when fe get_escr ;;
  let used := 5 * fp + 5 * fd + 6 * fe in
  if hlen <? used then fail else                (* 845: the loop bound wraps, EndOfData *)
  _ <- skip (Z.to_nat (hlen - used)) ;; ret (mkpes sid len hlen pts dts escr).
(** GetTime(), GetDTSTime(), mpeg2ts.fl 870-871 *)
Definition stamp_time (s : Z * Z * Z) : Z := let '(a, b, c) := s in Time a b c 0.
Definition escr_time (s : Z * Z * Z * Z) : Z := let '(a, b, c, e) := s in Time a b c e.

(** * Transport packets, writing *)
(** Adaptation_Field as output_ts fills it: length, random_access_indicator, PCR *)
Record adapt := mkadapt { af_len : Z; af_rai : Z; af_pcr : option Z }.
(** mpeg2ts.fl 899-925, 982-993 (put) *)
Definition put_adapt (a : adapt) : list Z :=
  af_len a mod 256 ::
  (if (0 <? af_len a) && (af_len a <=? 183) then
     pack ([(0, 1%nat); (af_rai a, 1%nat); (0, 1%nat); (b2z (present (af_pcr a)), 1%nat); (0, 1%nat); (0, 1%nat); (0, 1%nat); (0, 1%nat)]
           ++ match af_pcr a with
              | None => []
              | Some t => let c := ToMpegTime t in
                  [(c32_30 c, 3%nat); (c29_15 c, 15%nat); (c14_0 c, 15%nat); (0, 6%nat); (cext c, 9%nat)]
              end)
     ++ repeat 0 (Z.to_nat (af_len a - (1 + 6 * b2z (present (af_pcr a)))))
   else []).
(** mpeg2ts.fl 1262-1309 (put): [pay] are the payload bytes copied in the packet *)
Definition put_packet (pusi pid cc : Z) (a : option adapt) (pay : list Z) : list Z :=
  pack [(0x47, 8%nat); (0, 1%nat); (pusi, 1%nat); (0, 1%nat); (pid, 13%nat); (0, 2%nat); (b2z (present a), 1%nat); (1, 1%nat); (cc, 4%nat)]
  ++ match a with None => [] | Some a => put_adapt a end ++ pay.

Inductive ts_result := Packets (l : list (list Z)) (cc : Z) | OverRead.

(** tswrite.h 533-544: the full packets; the counter is an unsigned char *)
Fixpoint full_packets (n : nat) (pid cc : Z) (data : list Z) : list (list Z) * Z * list Z :=
  match n with
  | O => ([], cc, data)
  | S k => let '(l, c, r) := full_packets k pid ((cc + 1) mod 256) (skipn 184 data) in
           (put_packet 0 pid cc None (firstn 184 data) :: l, c, r)
  end.
(** tswrite.h 395-567; [data] is pbytes[0..size), [cc] the PID's counter.
    A memcpy of more bytes than the data has left is [OverRead]. *)
Definition output_ts (pid : Z) (data : list Z) (rai : bool) (pcr : option Z) (cc : Z) : ts_result :=
  let size := zlen data in
  let pcr := if rai then pcr else None in                                       (* 446-465 *)
  let first := if rai then (if present pcr then 176 else 182) else 184 in
  let len1 := if present pcr then 7 else 1 in
  let small := size <? first in
  let diff := first - size in
  let len := if small then (if diff =? 1 then 0 else if rai then len1 + diff else len1 + (first - 2 - size)) else len1 in (* 471-492 *)
  let a := if rai || small then Some (mkadapt len (b2z rai) pcr) else None in
  let body := if rai || small then 184 - 1 - len else 184 in
  if size <? body then OverRead else
  let p1 := put_packet 1 pid cc a (firstn (Z.to_nat body) data) in
  let rest := skipn (Z.to_nat body) data in
  let full := Z.quot (size - first) 184 in
  let last := Z.rem (size - first) 184 in
  let '(l, c, r) := full_packets (Z.to_nat full) pid ((cc + 1) mod 256) rest in
  if 0 <? last
  then Packets (p1 :: l ++ [put_packet 0 pid c (Some (mkadapt (183 - last) 0 None)) (firstn (Z.to_nat last) r)]) ((c + 1) mod 256)
  else Packets (p1 :: l) c.

(** * Transport packets, reading *)
Record tp := mktp { t_tei : Z; t_pusi : Z; t_pid : Z; t_af : Z; t_pay : Z; t_cc : Z;
  t_aflen : Z; t_rai : Z; t_pcr : option (Z * Z * Z * Z); t_payload : list Z }.
(** mpeg2ts.fl 1258-1260: go to the next 0x47 *)
Fixpoint sync (l : list Z) : option (list Z) :=
  match l with [] => None | b :: r => if b =? 0x47 then Some r else sync r end.
Fixpoint get_n (n : nat) (l : list Z) : option (list Z * list Z) :=
  match n with
  | O => Some ([], l)
  | S k => match l with [] => None | b :: r => match get_n k r with None => None | Some (x, y) => Some (b :: x, y) end end
  end.
Definition bit_of (b : Z) (i : Z) : Z := b2z (Z.testbit b i).
(** mpeg2ts.fl 899-997 (get): length, random access, PCR and what follows.
    Simplified: adaptation_field_extension (957-976) is not modelled ([None]). *)
Definition get_adapt (l : list Z) : option (Z * Z * option (Z * Z * Z * Z) * list Z) :=
  match l with
  | [] => None
  | len :: r0 =>
    if negb ((0 <? len) && (len <=? 183)) then Some (len, 0, None, r0) else
    match r0 with
    | [] => None
    | fl :: r1 =>
      if bit_of fl 0 =? 1 then None else
      match (if bit_of fl 4 =? 1 then match get_n 6 r1 with None => None | Some (x, r) =>
               match fields [3; 15; 15; 6; 9]%nat (bytes_bits x) with
               | [a; b; c; _; e] => Some (Some (a, b, c, e), r) | _ => None end end
             else Some (None, r1)) with
      | None => None
      | Some (pcr, r2) =>
        match get_n (Z.to_nat (6 * bit_of fl 3 + bit_of fl 2)) r2 with        (* OPCR, splice_countdown *)
        | None => None
        | Some (_, r3) =>
          let base := 1 + 6 * bit_of fl 4 + 6 * bit_of fl 3 + bit_of fl 2 in
          (* 946-956: n private bytes; their length byte is not counted in total_bits *)
          match (if bit_of fl 1 =? 1 then match r3 with [] => None | n :: r => match get_n (Z.to_nat n) r with None => None | Some (_, r') => Some (base + n, r') end end
                 else Some (base, r3)) with
          | None => None
          | Some (total, r4) =>
            match get_n (Z.to_nat (len - total)) r4 with
            | None => None
            | Some (_, r5) => Some (len, bit_of fl 6, pcr, r5)
            end
          end
        end
      end
    end
  end.
(** mpeg2ts.fl 1255-1311 (get) *)
Definition get_packet (l : list Z) : option (tp * list Z) :=
  match sync l with
  | None => None
  | Some r =>
    match get_n 3 r with
    | None => None
    | Some (h, r1) =>
      match fields [1; 1; 1; 13; 2; 1; 1; 4]%nat (bytes_bits h) with
      | [tei; pusi; _; pid; _; af; pf; cc] =>
        if tei =? 1 then (match get_n 0 r with None => None | Some _ => Some (mktp 1 0 0 0 0 0 0 0 None [], r1) end)
        else
        if af =? 1 then
          match get_adapt r1 with
          | None => None
          | Some (len, rai, pcr, r2) =>
            if (pf =? 1) && (len <=? 183) then
              match get_n (Z.to_nat (183 - len)) r2 with
              | None => None
              | Some (pay, r3) => Some (mktp tei pusi pid af pf cc len rai pcr pay, r3)
              end
            else Some (mktp tei pusi pid af pf cc len rai pcr [], r2)
          end
        else if pf =? 1 then
          match get_n 184 r1 with
          | None => None
          | Some (pay, r3) => Some (mktp tei pusi pid af pf cc 0 0 None pay, r3)
          end
        else Some (mktp tei pusi pid af pf cc 0 0 None [], r1)
      | _ => None
      end
    end
  end.

(** the read loop of the users of Transport_Packet (for example
    /repo/src/mg/media/tsparse.h), until EndOfData *)
Fixpoint get_packets (fuel : nat) (l : list Z) : list tp :=
  match fuel with
  | O => []
  | S k => match get_packet l with None => [] | Some (t, r) => t :: get_packets k r end
  end.

(** * PES reassembly, ts.h 57-234 and 531-737, one PID *)
Record pstate := mkps { s_payload : list Z; s_gotfirst : bool; s_has : bool; s_data : option pes; s_sid : Z }.
Definition ps0 : pstate := mkps [] false false None 0.
Inductive pevent := Received (body : list Z) | Incomplete | OutOfBounds | Throws.

(** nextcode(0x000001, 24, 8): bytes before the first start code *)
Fixpoint nextcode (l : list Z) : option (list Z) :=
  match l with
  | a :: ((b :: c :: _) as r) => if (a =? 0) && (b =? 0) && (c =? 1) then Some l else nextcode r
  | _ => None
  end.
(** the PES length the last header had; PES_packet_length of a never filled PesData is
    not initialised: 0 is taken *)
Definition last_len (s : pstate) : Z := match s_data s with Some p => p_len p | None => 0 end.
Definition last_hlen (s : pstate) : Z := match s_data s with Some p => p_hlen p | None => 0 end.
(** 551-560: the payload after the header (all of it, from the start of the unit) *)
Definition receive (s : pstate) : pevent := Received (skipn (Z.to_nat (9 + last_hlen s)) (s_payload s)).
(** 563-610 *)
Definition before_unit_start (s : pstate) : pstate * list pevent :=
  let fin (s : pstate) (ev : list pevent) :=
    if negb (last_len s =? 0) then (s, ev)
    else (mkps (s_payload s) (s_gotfirst s) false (s_data s) (s_sid s), ev ++ [receive s]) in
  if s_has s then fin s []
  else match nextcode (s_payload s) with
       | None => (s, [])
       | Some l => match get_pes (bytes_bits l) with
                   | None => (s, [])
                   | Some (p, _) =>
                     let s' := mkps (s_payload s) (s_gotfirst s) (p_len p =? 0) (Some p) (s_sid s) in
                     fin s' (if p_len p =? 0 then [] else [Incomplete])
                   end
       end.
(** 611-700 *)
Definition process (s : pstate) : pstate * list pevent :=
  if zlen (s_payload s) <? 6 then (s, [])
  else match nextcode (s_payload s) with
       | None => (s, [])
       | Some l =>
         match fields [24; 8; 16]%nat (bytes_bits (firstn 6 l)) with
         | [_; sid; len] =>
           if zlen l <? 6 then (s, [Throws])
           else if len =? 0 then (s, [])
           else if zlen l <? len + 6 then (s, [])
           else match get_pes (bytes_bits l) with
                | None => (s, [Throws])
                | Some (p, _) =>
                  let s' := mkps (s_payload s) (s_gotfirst s) true (Some p) (s_sid s) in
                  if s_sid s =? 0 then let s'' := mkps (s_payload s) (s_gotfirst s) true (Some p) sid in (s'', [receive s''])
                  else if s_sid s =? sid then (s', [receive s'])
                  else (s', [Throws])
                end
         | _ => (s, [])
         end
       end.
(** 127-187.  183 - adaptation_field_length is unsigned: past 183 the payload copy reads
    gigabytes outside the packet. *)
Definition add (s : pstate) (t : tp) : pstate * list pevent :=
  if t_tei t =? 1 then (s, []) else
  let '(s1, e1) := if t_pusi t =? 1
    then let '(s', e) := if s_gotfirst s then before_unit_start s else (s, []) in (mkps [] (s_gotfirst s') (s_has s') (s_data s') (s_sid s'), e)
    else (s, []) in
  if (t_pay t =? 1) && (t_af t =? 1) && (183 <? t_aflen t) then (s1, e1 ++ [OutOfBounds]) else
  let s2 := if t_pay t =? 1
    then mkps (s_payload s1 ++ t_payload t) (s_gotfirst s1 || negb (match t_payload t with [] => true | _ => false end)) (s_has s1) (s_data s1) (s_sid s1)
    else s1 in
  let '(s3, e3) := process s2 in (s3, e1 ++ e3).
Fixpoint add_all (s : pstate) (l : list tp) : pstate * list pevent :=
  match l with [] => (s, []) | t :: l' => let '(s1, e1) := add s t in let '(s2, e2) := add_all s1 l' in (s2, e1 ++ e2) end.
(** 205-208: End() *)
Definition reassemble (l : list tp) : list pevent :=
  let '(s, e) := add_all ps0 l in e ++ snd (before_unit_start s).

(** * Specification vocabulary: ISO 13818-1, independent of the code above. *)
(** the parts of a 188-byte transport packet *)
Definition iso_sync (p : list Z) : Z := nth 0 p 0.
Definition iso_pusi (p : list Z) : Z := nth 1 p 0 / 64 mod 2.
Definition iso_pid (p : list Z) : Z := nth 1 p 0 mod 32 * 256 + nth 2 p 0.
Definition iso_af (p : list Z) : Z := nth 3 p 0 / 32 mod 2.
Definition iso_has_payload (p : list Z) : Z := nth 3 p 0 / 16 mod 2.
Definition iso_cc (p : list Z) : Z := nth 3 p 0 mod 16.
Definition iso_payload (p : list Z) : list Z := skipn (4 + (if iso_af p =? 1 then 1 + Z.to_nat (nth 4 p 0) else 0)) p.
Definition iso_rai (p : list Z) : Z := if (iso_af p =? 1) && (0 <? nth 4 p 0) then nth 5 p 0 / 64 mod 2 else 0.
Definition iso_pcr_flag (p : list Z) : Z := if (iso_af p =? 1) && (0 <? nth 4 p 0) then nth 5 p 0 / 16 mod 2 else 0.
(** 33-bit PCR base: the 33 bits after the flags *)
Definition iso_pcr_base (p : list Z) : Z :=
  ((((nth 6 p 0 * 256 + nth 7 p 0) * 256 + nth 8 p 0) * 256 + nth 9 p 0) * 2 + nth 10 p 0 / 128).
Definition iso_packet (pid : Z) (p : list Z) : Prop :=
  length p = 188%nat /\ bytes p /\ iso_sync p = 0x47 /\ iso_pid p = pid /\ iso_has_payload p = 1
  /\ nth 1 p 0 / 128 = 0 /\ (iso_af p = 1 -> nth 4 p 0 <= 183).
Definition concat_payloads (l : list (list Z)) : list Z := concat (map iso_payload l).
(** the adaptation field, if any, fits, has no private data and no extension, and its
    length covers the optional fields it announces (PCR, OPCR, splice countdown) *)
Definition iso_plain_af (p : list Z) : Prop := iso_af p = 1 ->
  nth 4 p 0 <= 183 /\ (0 < nth 4 p 0 -> nth 5 p 0 mod 4 = 0 /\ 1 + 6 * (nth 5 p 0 / 16 mod 2) + 6 * (nth 5 p 0 / 8 mod 2) + nth 5 p 0 / 4 mod 2 <= nth 4 p 0).
(** the times the writer can represent: t/10000 ms at 27 MHz fits in 64 bits *)
Definition fits (t : Z) : Prop := 0 <= t /\ t / 10000 * 27000 < 2 ^ 64.
Definition ofits (t : option Z) : Prop := match t with None => True | Some t => fits t end.
(** the packets of one unit: the first one starts it, none is damaged, each carries some
    bytes, together they carry [u] *)
Definition carries (l : list tp) (u : list Z) : Prop :=
  concat (map t_payload l) = u /\ match l with [] => False | t :: l' => t_pusi t = 1 /\ Forall (fun t => t_pusi t = 0) l' end
  /\ Forall (fun t => t_tei t = 0 /\ t_pay t = 1 /\ (t_af t = 1 -> t_aflen t <= 183) /\ t_payload t <> []) l.
(** 9-bit PCR extension *)
Definition iso_pcr_ext (p : list Z) : Z := nth 10 p 0 mod 2 * 256 + nth 11 p 0.
(** room for data in a packet carrying these indications *)
Definition first_room (rai : bool) (pcr : option Z) : Z := if rai then (if present pcr then 176 else 182) else 184.
Definition eff_pcr (rai : bool) (pcr : option Z) : option Z := if rai then pcr else None.
(** a PES unit as the writer is given it ([u_r], [u_mk]: the uninitialised members) *)
Record unit_t := mkunit { u_r : Z; u_mk : Z; u_sid : Z; u_pts : option Z; u_dts : option Z; u_escr : option Z; u_body : list Z }.
Definition u_bytes (u : unit_t) : list Z :=
  pes_header (u_r u) (u_mk u) (u_sid u) (u_pts u) (u_dts u) (u_escr u) (zlen (u_body u)) ++ u_body u.
Definition u_ok (u : unit_t) : Prop := ofits (u_pts u) /\ ofits (u_dts u) /\ ofits (u_escr u) /\ 0 < u_sid u < 256.
(** bytes after the PES_packet_length field *)
Definition u_total (u : unit_t) : Z := 3 + 5 * b2z (present (u_pts u)) + 5 * b2z (present (u_dts u)) + 6 * b2z (present (u_escr u)) + zlen (u_body u).
(** the unit's length can be declared / is left open *)
Definition declares (u : unit_t) : Prop := 0 < zlen (u_body u) /\ u_total u <= 65535.
Definition leaves_open (u : unit_t) : Prop := zlen (u_body u) = 0 \/ 65535 <= zlen (u_body u).
(** the writer, unit after unit (tswrite.h 174-302: output_pes then output_ts) *)
Fixpoint write_units (pid cc : Z) (us : list (unit_t * bool * option Z)) : option (list Z) :=
  match us with
  | [] => Some []
  | (u, rai, pcr) :: us' =>
    match output_ts pid (u_bytes u) rai pcr cc with
    | OverRead => None
    | Packets l c => option_map (app (concat l)) (write_units pid c us')
    end
  end.
(** a unit with the indications of its first packet, outside the sizes output_ts over-reads *)
Definition unit_fits (x : unit_t * bool * option Z) : Prop := let '(u, rai, pcr) := x in
  u_ok u /\ bytes (u_body u) /\ ofits pcr /\ (rai = true -> zlen (u_bytes u) <> first_room rai pcr - 1).
