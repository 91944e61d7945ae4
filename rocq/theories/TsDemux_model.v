(** Model of the demultiplexer of transport streams: /repo/src/mg/media/tsparse.h 552-768
    (CTSProcessor::process) over the section readers (ts.h 234-302, TsSect_model), the PES
    reader (ts.h 57-234, 511-737, Ts_model) with its Reset (108-118, 705-709), and the search for
    the first header of a stream (ts.h 799-918, tsparse.h 206-222, 390-436).
    Maps keyed by PID are association lists.  The parse of the header found (H264Sequence, ADTS)
    is not modelled, nor the exceptions it may throw; result codes only where they matter. *)
From Verif Require Import Util Bits_spec TsTime_model Ts_model Crc_model TsSect_model.
Local Open Scope Z_scope.

(** * One stream *)
(** LookUp 814-828 with IsHim of H.264 (424-428) and AAC (220-224): a header with at least 25
    (15) bytes after its start *)
Fixpoint look_h264 (l : list Z) : bool :=
  match l with
  | [] => false
  | a :: r => (25 <=? zlen l) && (((a =? 0) && (nth 0 r 0 =? 0) && (nth 1 r 0 =? 1) && (Z.land 31 (nth 2 r 0) =? 7)) || look_h264 r)
  end.
Fixpoint look_aac (l : list Z) : bool :=
  match l with
  | [] => false
  | a :: r => (15 <=? zlen l) && (((a =? 255) && (nth 0 r 0 / 16 =? 15)) || look_aac r)
  end.
(** get_ts_pes 569-588: what has to be seen of a stream before its data is handed on:
    getMinAnalyzeSize and LookUp; other streams are handed on as they come *)
Definition gate_of (type : Z) : option (Z * (list Z -> bool)) :=
  if type =? 0x1b then Some (100, look_h264) else if type =? 0x0f then Some (30, look_aac) else None.
(** [d_first]: random_access_indicator of _FirstAdaptation, if there is one; [d_struct]:
    _HasStruct *)
Record dstate := mkD { d_ps : pstate; d_first : option Z; d_struct : bool }.
Definition d0 : dstate := mkD ps0 None false.
(** what reaches ReceiveElementaryStreamData: the bytes, the indicator the receiver sees
    (HasFirstAdaptation, first_adaptation) and the PES header *)
Inductive devent := DUnit (body : list Z) (rai : option Z) (header : option pes) | DIncomplete | DOutOfBounds | DThrows.
(** Receive 866-882 and 763-772 *)
Definition hand_on (gate : option (Z * (list Z -> bool))) (st : bool) (first : option Z) (header : option pes) (e : pevent) : list devent :=
  let open_ := match gate with None => true | Some _ => st end in
  match e with
  | Received b => if open_ then [DUnit b first header] else []
  | Incomplete => [DIncomplete]
  | OutOfBounds => [DOutOfBounds]
  | Throws => if open_ then [DThrows] else []                    (* 884-897 *)
  end.
(** tspacket::add 127-187 with TSProgramElementaryStreamAnalyze::process 884-897 *)
Definition dadd (gate : option (Z * (list Z -> bool))) (s : dstate) (t : tp) : dstate * list devent :=
  if t_tei t =? 1 then (s, []) else
  let '(s1, e1) := if t_pusi t =? 1
    then let '(p, e) := if s_gotfirst (d_ps s) then before_unit_start (d_ps s) else (d_ps s, []) in
         (mkD (mkps [] (s_gotfirst p) (s_has p) (s_data p) (s_sid p)) (d_first s) (d_struct s), flat_map (hand_on gate (d_struct s) (d_first s) (s_data p)) e)
    else (s, []) in
  if (t_pay t =? 1) && (t_af t =? 1) && (183 <? t_aflen t) then (s1, e1 ++ [DOutOfBounds]) else
  let p1 := d_ps s1 in
  let p2 := if t_pay t =? 1
    then mkps (s_payload p1 ++ t_payload t) (s_gotfirst p1 || negb (match t_payload t with [] => true | _ => false end)) (s_has p1) (s_data p1) (s_sid p1)
    else p1 in
  (* 163-168 *)
  let first := match d_first s1 with
               | Some r => Some r
               | None => if (t_pay t =? 1) && (t_af t =? 1) && negb (t_aflen t =? 183) then Some (t_rai t) else None
               end in
  (* 886-890 *)
  let struct := d_struct s1 || match gate with None => false | Some (min, look) => (min <=? zlen (s_payload p2)) && look (s_payload p2) end in
  let '(p3, e3) := process p2 in
  (mkD p3 first struct, e1 ++ flat_map (hand_on gate struct first (s_data p3)) e3).
(** 733-739: Reset when the stream has data *)
Definition dstep (gate : option (Z * (list Z -> bool))) (s : dstate) (t : tp) : dstate * list devent :=
  let '(s, e) := dadd gate s t in
  if s_has (d_ps s) then (mkD (mkps [] false false (s_data (d_ps s)) (s_sid (d_ps s))) None (d_struct s), e) else (s, e).
Definition fatal (e : devent) : bool := match e with DOutOfBounds | DThrows => true | _ => false end.
(** all the packets of a stream, until an exception *)
Fixpoint dfeed (gate : option (Z * (list Z -> bool))) (s : dstate) (l : list tp) : list devent :=
  match l with
  | [] => []
  | t :: l => let '(s, e) := dstep gate s t in if existsb fatal e then e else e ++ dfeed gate s l
  end.
(** GetTime and GetDTSTime of the header (mpeg2ts.fl 870-871; None = no such stamp, the members
    are what they were before) *)
Definition pts_of (header : option pes) : option Z := match header with Some p => option_map stamp_time (p_pts p) | None => None end.
Definition dts_of (header : option pes) : option Z := match header with Some p => option_map stamp_time (p_dts p) | None => None end.
(** TS2MP4H264::PacketEnd, tsinfo.cpp 201-206 *)
Definition iframe (rai : option Z) : bool := match rai with Some r => negb (r =? 0) | None => false end.

(** * All streams *)
Fixpoint find_pid {A} (pid : Z) (m : list (Z * A)) : option A :=
  match m with [] => None | (p, x) :: m => if p =? pid then Some x else find_pid pid m end.
Fixpoint set_pid {A} (pid : Z) (x : A) (m : list (Z * A)) : list (Z * A) :=
  match m with [] => [(pid, x)] | (p, y) :: m => if p =? pid then (pid, x) :: m else (p, y) :: set_pid pid x m end.
(** _pat (its payload; programs once it can work), _pmts, _pes with _pes_type *)
Record demux := mkDm { dm_buf : list Z; dm_pat : option (list (Z * Z)); dm_pmts : list (Z * (list Z * option pmt)); dm_pes : list (Z * (Z * dstate)) }.
Definition dm0 : demux := mkDm [] None [] [].
Inductive mevent := MUnit (pid : Z) (e : devent) | MThrows.
Definition last_table {A} (l : list (psi_result A)) : option (option A) :=
  match l with
  | [Table x _] => Some (Some x)
  | [EndOfDataThrown] => None
  | _ => Some None
  end.
(** process 636-745; [align]: the address of the buffers, which the CRC does not depend on *)
Definition dm_process (align : nat) (m : demux) (t : tp) : demux * list mevent :=
  if t_pid t =? 0 then
    match dm_pat m with
    | Some _ => (m, [])                                          (* LATE *)
    | None =>
      let '(b, r) := psi_add align 0 get_pat (dm_buf m) t in
      match last_table r with
      | None => (mkDm b None (dm_pmts m) (dm_pes m), [MThrows])
      | Some None => (mkDm b None (dm_pmts m) (dm_pes m), [])
      | Some (Some (ps, _)) => (mkDm b (Some ps) (fold_left (fun l p => set_pid (snd p) ([], None) l) ps (dm_pmts m)) (dm_pes m), [])
      end
    end
  else match dm_pat m with
  | None => (m, [])                                              (* NO_PAT *)
  | Some _ =>
    match find_pid (t_pid t) (dm_pmts m) with
    | Some (_, Some _) => (m, [])                                (* LATE *)
    | Some (b, None) =>
      let '(b, r) := psi_add align 2 get_pmt b t in
      match last_table r with
      | None => (mkDm (dm_buf m) (dm_pat m) (set_pid (t_pid t) (b, None) (dm_pmts m)) (dm_pes m), [MThrows])
      | Some None => (mkDm (dm_buf m) (dm_pat m) (set_pid (t_pid t) (b, None) (dm_pmts m)) (dm_pes m), [])
      | Some (Some x) => (mkDm (dm_buf m) (dm_pat m) (set_pid (t_pid t) (b, Some x) (dm_pmts m))
                            (fold_left (fun l (s : Z * Z * list (Z * list Z)) => set_pid (snd (fst s)) (fst (fst s), d0) l) (m_streams x) (dm_pes m)), [])
      end
    | None =>
      match find_pid (t_pid t) (dm_pes m) with
      | Some (ty, s) => let '(s, e) := dstep (gate_of ty) s t in
        (mkDm (dm_buf m) (dm_pat m) (dm_pmts m) (set_pid (t_pid t) (ty, s) (dm_pes m)), map (MUnit (t_pid t)) e)
      | None => (m, [])                                          (* NOT_FOUND *)
      end
    end
  end.
Definition mfatal (e : mevent) : bool := match e with MThrows => true | MUnit _ e => fatal e end.
(** process_packets 838-899 over the packets, until an exception *)
Fixpoint dm_run (align : nat) (m : demux) (l : list tp) : list mevent :=
  match l with
  | [] => []
  | t :: l => let '(m, e) := dm_process align m t in if existsb mfatal e then e else e ++ dm_run align m l
  end.

(** * Specification vocabulary *)
(** the random access indicator of the first adaptation field in the packets that carry data *)
Fixpoint first_indicator (l : list tp) : option Z :=
  match l with [] => None | t :: l => if (t_pay t =? 1) && (t_af t =? 1) && negb (t_aflen t =? 183) then Some (t_rai t) else first_indicator l end.
(** the units of a stream, with the packets that carry them: lengths declared or open, one
    stream id *)
Definition stream_units (sid : Z) (us : list (unit_t * list tp)) : Prop :=
  Forall (fun x => u_ok (fst x) /\ carries (snd x) (u_bytes (fst x)) /\ ((declares (fst x) /\ u_sid (fst x) = sid) \/ leaves_open (fst x))) us.
(** the bytes hold a sequence parameter set (an ADTS header) and so many bytes after it *)
Definition has_sps (x : list Z) : Prop := exists a n b, x = a ++ [0; 0; 1; n] ++ b /\ n mod 32 = 7 /\ 21 <= zlen b.
Definition has_adts (x : list Z) : Prop := exists a n b, x = a ++ [255; n] ++ b /\ n / 16 = 15 /\ 13 <= zlen b.
(** H.264 (stream type 0x1b) and AAC (0x0f) streams have to show a header first *)
Definition recognisable (type : Z) (x : list Z) : Prop := (type = 0x1b -> 100 <= zlen x /\ has_sps x) /\ (type = 0x0f -> 30 <= zlen x /\ has_adts x).
(** the first packets of the first unit show it *)
Definition starts_recognisable (type : Z) (us : list (unit_t * list tp)) : Prop :=
  match us with [] => True | (_, l) :: _ => exists a b, l = a ++ b /\ recognisable type (concat (map t_payload a)) end.
(** a stream with small units only *)
Definition small_units (type : Z) (us : list (unit_t * list tp)) : Prop := exists min, (type = 0x1b /\ min = 100 \/ type = 0x0f /\ min = 30) /\ Forall (fun x => zlen (u_bytes (fst x)) < min) us.
(** a packet with a PAT of one program *)
Definition carries_pat (t : tp) (n pid : Z) : Prop := exists flags id v f l r c,
  0 <= flags < 16 /\ w16 id /\ is_byte v /\ is_byte f /\ is_byte l /\ 0 <= r < 8 /\ 0 <= c < 2 ^ 32 /\ w16 n /\ pid_ok pid /\ carries [t] (0 :: iso_section 0 flags id v f l (iso_program r (n, pid)) ++ be32 c).
(** a packet with a PMT *)
Definition carries_pmt (t : tp) (streams : list (Z * Z * list (Z * list Z))) : Prop := exists flags id v f l r1 r2 pcr info c,
  0 <= flags < 16 /\ w16 id /\ is_byte v /\ is_byte f /\ is_byte l /\ 0 <= r1 < 8 /\ 0 <= r2 < 16 /\ 0 <= c < 2 ^ 32 /\ pid_ok pcr /\ descriptors_ok info /\ Forall stream_ok streams
  /\ 9 + zlen (iso_pmt_body r1 r2 pcr info streams) < 4096 /\ carries [t] (0 :: iso_section 2 flags id v f l (iso_pmt_body r1 r2 pcr info streams) ++ be32 c).
(** a packet with nothing for the stream: an adaptation field only, as those which carry a PCR
    between units or fill up the counter *)
Definition idle (t : tp) : bool := (t_tei t =? 0) && (t_pusi t =? 0) && ((t_pay t =? 0) || ((t_af t =? 1) && (t_aflen t =? 183) && match t_payload t with [] => true | _ => false end)).
(** a transport stream: the two tables, then the packets of the streams, interleaved in any way,
    with idle packets and packets of other PIDs between them; [units pid]: the units of a stream with their
    packets *)
Definition transport (streams : list (Z * Z * list (Z * list Z))) (units : Z -> list (unit_t * list tp)) (l : list tp) : Prop :=
  exists tpat tpmt n rest, l = tpat :: tpmt :: rest /\ t_pid tpat = 0 /\ t_pid tpmt <> 0 /\ carries_pat tpat n (t_pid tpmt) /\ carries_pmt tpmt streams
  /\ NoDup (map (fun s => snd (fst s)) streams) /\ ~ In 0 (map (fun s => snd (fst s)) streams) /\ ~ In (t_pid tpmt) (map (fun s => snd (fst s)) streams)
  /\ forall ty pid ds, In (ty, pid, ds) streams -> filter (fun t => (t_pid t =? pid) && negb (idle t)) rest = concat (map snd (units pid))
     /\ (exists sid, stream_units sid (units pid)) /\ (starts_recognisable ty (units pid) \/ small_units ty (units pid)).
(** what a time is after a stamp of 33 bits at 90 kHz: cut to the millisecond if it is less than
    26.5 hours *)
Definition stamped (t : Z) : Z := t / 10000 * 90 mod 2 ^ 33 * 1000 / 9.
(** the event hands on the unit with its times, and this indicator *)
Definition hands_on (u : unit_t) (f : option Z) (e : devent) : Prop :=
  exists h, e = DUnit (u_body u) f h /\ pts_of h = option_map stamped (u_pts u) /\ dts_of h = option_map stamped (u_dts u).
(** the events of one stream *)
Definition of_pid (pid : Z) (l : list mevent) : list devent := flat_map (fun e => match e with MUnit p x => if p =? pid then [x] else [] | MThrows => [] end) l.
