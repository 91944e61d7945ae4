(** Model of the H.264 parameter sets and of the avcC record: /repo/src/mg/media/mp4/h264.fl
    13-435, /repo/src/mg/media/mp4/mp4.fl 562-648, /repo/src/mg/media/mp4parse.h 1532-1599 and
    /repo/src/mg/media/mp4write.h 1814-2010.

    The reader is a list of the bits left (C04: what FixedMemoryBitstream::getbits gives is the
    next bits, and EndOfData is thrown when there are not enough).  Values the grammar fixes
    (reserved bits, the stop bit) are read and not enforced, as in the generated code, which only
    reports them.  _ASSERTE is not modelled (release build). *)
From Verif Require Import Util Bits_spec Bitstream_model Nal_model.
Local Open Scope Z_scope.

Notation getter A := (list bool -> outcome (A * list bool)).
Definition gret {A} (a : A) : getter A := fun s => Ok (a, s).
Definition gbind {A B} (p : getter A) (f : A -> getter B) : getter B := fun s => bindo (p s) (fun r => f (fst r) (snd r)).
Notation "'let*' x ':=' p 'in' q" := (gbind p (fun x => q)) (at level 200, x pattern, p at level 100, q at level 200).
Definition gub {A} : getter A := fun _ => UB.
(** var_bs.getbits(n), n from 1 to 32 *)
Definition getb (n : nat) : getter Z := fun s => if Nat.leb n (length s) then Ok (bits_val (firstn n s), skipn n s) else EndOfData.

(** h264.fl 13-30, the loop 17-19: the number of zeros before the first 1 *)
Fixpoint zeros (s : list bool) : outcome (nat * list bool) :=
  match s with [] => EndOfData | true :: s => Ok (O, s) | false :: s => bindo (zeros s) (fun r => Ok (S (fst r), snd r)) end.
(** 21-29.  getbits throws for more than 32 bits (bitstream.h 1315); from 31 zeros on,
    static_cast<int>(pow(2.0, ..)) does not fit an int. *)
Definition ue : getter Z := fun s =>
  bindo (zeros s) (fun r => let '(z, s) := r in
  if Nat.eqb z 0 then Ok (0, s) else
  bindo (if Nat.leb z 32 then getb z s else InvalidInput) (fun r => if Nat.leb 31 z then UB else Ok (2 ^ Z.of_nat z - 1 + fst r, snd r))).
(** static_cast<float>: to the nearest number of 24 significant bits, ties to even *)
Definition to_float (k : Z) : Z :=
  if k <? 2 ^ 24 then k else
  let u := 2 ^ (Z.log2 k - 23) in let q := k / u in let r := k mod u in
  u * (if (u <? 2 * r) || ((u =? 2 * r) && Z.odd q) then q + 1 else q).
(** h264.fl 32-41: (-1)^(k+1) * ceil(k/2); the two conversions to int are undefined from 2^31 on *)
Definition se : getter Z :=
  let* n := ue in let k := to_float n in
  if 2 ^ 31 <=? k then gub else gret (if Z.odd k then (k + 1) / 2 else - ((k + 1) / 2)).

(** [n] times; all the values (the generated class keeps the last one of a member without index) *)
Fixpoint rep {A} (n : nat) (p : getter A) : getter (list A) :=
  match n with O => gret [] | S n => let* x := p in let* l := rep n p in gret (x :: l) end.

(** h264.fl 45-69 *)
Record hrd := mkHrd { h_rate_scale : Z; h_size_scale : Z; h_cpb : list (Z * Z * Z); h_delay : Z; h_removal : Z; h_output : Z; h_offset : Z }.
Definition get_hrd : getter hrd :=
  let* cnt := ue in let* rs := getb 4 in let* ss := getb 4 in
  if 64 <=? cnt then gub else                    (* the arrays 48-49 have 64 elements *)
  let* l := rep (Z.to_nat (cnt + 1)) (let* r := ue in let* z := ue in let* c := getb 1 in gret (r, z, c)) in
  let* a := getb 5 in let* b := getb 5 in let* c := getb 5 in let* d := getb 5 in gret (mkHrd rs ss l a b c d).

(** what is there only when a flag says so *)
Definition opt {A} (p : getter A) : getter (option A) := let* f := getb 1 in if f =? 0 then gret None else let* x := p in gret (Some x).

(** h264.fl 73-166 *)
Record vui := mkVui {
  u_aspect : option (Z * option (Z * Z)); u_overscan : option Z; u_signal : option (Z * Z * option (Z * Z * Z));
  u_chroma : option (Z * Z); u_timing : option (Z * Z * Z); u_nal : option hrd; u_vcl : option hrd; u_low : Z; u_struct : Z;
  u_limits : option (Z * Z * Z * Z * Z * Z * Z) }.
Definition get_vui : getter vui :=
  let* aspect := opt (let* idc := getb 8 in if idc =? 255 then let* w := getb 16 in let* h := getb 16 in gret (idc, Some (w, h)) else gret (idc, None)) in
  let* overscan := opt (getb 1) in
  let* signal := opt (let* f := getb 3 in let* r := getb 1 in
    let* c := opt (let* p := getb 8 in let* t := getb 8 in let* m := getb 8 in gret (p, t, m)) in gret (f, r, c)) in
  let* chroma := opt (let* t := ue in let* b := ue in gret (t, b)) in
  let* timing := opt (let* n := getb 32 in let* t := getb 32 in let* f := getb 1 in gret (n, t, f)) in
  let* nal := opt get_hrd in
  let* vcl := opt get_hrd in
  let* low := (match nal, vcl with None, None => gret 0 | _, _ => getb 1 end) in
  let* st := getb 1 in
  let* limits := opt (let* m := getb 1 in let* a := ue in let* b := ue in let* c := ue in let* d := ue in let* e := ue in let* f := ue in gret (m, a, b, c, d, e, f)) in
  gret (mkVui aspect overscan signal chroma timing nal vcl low st limits).

(** pic_order_cnt_type and what goes with it, 215-239; the offsets of type 1 go in unsigned members *)
Inductive order := Order0 (lsb : Z) | Order1 (always : Z) (non_ref top_bottom : Z) (cycle : list Z) | OrderOther (type : Z).
(** h264.fl 170-284.  [q_high]: chroma_format_idc, residual_color_transform_flag (when the format
    is 3), the two bit depths, transform_bypass and decode_scaling_matrix (read, and not acted on:
    210).  [q_field]: mb_adaptive_frame_field_flag, when frame_mbs_only_flag is 0. *)
Record sps := mkSps {
  q_profile : Z; q_constraints : Z * Z * Z * Z; q_reserved : Z; q_level : Z; q_id : Z;
  q_high : option (Z * option Z * Z * Z * Z * Z);
  q_frame_num : Z; q_order : order; q_refs : Z; q_gaps : Z; q_width : Z; q_height : Z; q_field : option Z; q_direct : Z;
  q_crop : option (Z * Z * Z * Z); q_vui : option vui }.
Definition get_order : getter order :=
  let* t := ue in
  if t =? 0 then let* l := ue in gret (Order0 l) else
  if t =? 1 then let* z := getb 1 in let* a := se in let* b := se in let* n := ue in let* l := rep (Z.to_nat n) se in gret (Order1 z (u32 a) (u32 b) (map u32 l))
  else gret (OrderOther t).
(** 269-273: numbits() counts from the start of the bytes, of which there is a whole number *)
Definition trailing : getter unit := let* _ := getb 1 in (fun s => Ok (tt, skipn (length s mod 8) s)).
Definition get_sps : getter sps :=
  let* profile := getb 8 in
  let* c0 := getb 1 in let* c1 := getb 1 in let* c2 := getb 1 in let* c3 := getb 1 in let* res := getb 4 in
  let* level := getb 8 in let* id := ue in
  let* high := (if 100 <=? profile then
      let* fmt := ue in let* rct := (if fmt =? 3 then let* r := getb 1 in gret (Some r) else gret None) in
      let* l := ue in let* c := ue in let* b := getb 1 in let* m := getb 1 in gret (Some (fmt, rct, l, c, b, m))
    else gret None) in
  let* fn := ue in let* ord := get_order in
  let* refs := ue in let* gaps := getb 1 in let* w := ue in let* h := ue in
  let* fm := getb 1 in
  let* field := (if fm =? 0 then let* a := getb 1 in gret (Some a) else gret None) in
  let* direct := getb 1 in
  let* crop := opt (let* l := ue in let* r := ue in let* t := ue in let* b := ue in gret (l, r, t, b)) in
  let* v := opt get_vui in
  let* _ := trailing in
  gret (mkSps profile (c0, c1, c2, c3) res level id high fn ord refs gaps w h field direct crop v).

(** h264.fl 286-435 with _size = 0 (mp4parse.h 1560), so without the extension 365-416 *)
Inductive groups := OneGroup | Runs (runs : list Z) | Boxes (n : Z) (boxes : list (Z * Z)) | Evolving (n type direction rate : Z) | Assigned (n : Z) (ids : list Z) | Other (n type : Z).
Record pps := mkPps { p_id : Z; p_sps : Z; p_entropy : Z; p_order : Z; p_groups : groups; p_l0 : Z; p_l1 : Z; p_weighted : Z; p_bipred : Z; p_qp : Z; p_qs : Z; p_chroma : Z; p_deblock : Z; p_intra : Z; p_redundant : Z }.
Definition get_groups : getter groups :=
  let* n := ue in
  if n =? 0 then gret OneGroup else
  let* t := ue in
  if t =? 0 then (if 64 <=? n then gub else let* l := rep (Z.to_nat (n + 1)) ue in gret (Runs l)) else
  if t =? 2 then (if 65 <=? n then gub else let* l := rep (Z.to_nat n) (let* a := ue in let* b := ue in gret (a, b)) in gret (Boxes n l)) else
  if (t =? 3) || (t =? 4) || (t =? 5) then let* d := getb 1 in let* r := ue in gret (Evolving n t d r) else
  if t =? 6 then let* m := ue in (if 64 <=? m then gub else let* l := rep (Z.to_nat (m + 1)) ue in gret (Assigned n l))
  else gret (Other n t).
Definition get_pps : getter pps :=
  let* id := ue in let* sid := ue in let* ent := getb 1 in let* ord := getb 1 in
  let* gs := get_groups in
  let* l0 := ue in let* l1 := ue in let* wp := getb 1 in let* bi := getb 2 in
  let* qp := se in let* qs := se in let* ch := se in
  let* db := getb 1 in let* ci := getb 1 in let* rd := getb 1 in
  let* _ := trailing in gret (mkPps id sid ent ord gs l0 l1 wp bi qp qs ch db ci rd).

(** mp4parse.h 1538-1556, 1558-1575, mp4write.h 1825-1836: decode_nal and the bits after the NAL
    header *)
Definition parse_nal {A} (p : getter A) (nal : list Z) : outcome A :=
  match decode_nal nal with None => EndOfData | Some d => bindo (p (bytes_bits (tl (rbsp d)))) (fun r => Ok (fst r)) end.

(** mp4.fl 562-648: the record.  The arrays of the NAL units have 256 bytes, and are written over
    at every unit; [a_sps_bytes] and [a_pps_bytes] are the parameter sets as kept (their first
    bytes), [a_sps] and [a_pps] what CAVCCHeader made of each. *)
Record avcc := mkAvcc { a_profile : Z; a_compat : Z; a_level : Z; a_size : Z; a_sps : list sps; a_pps : list pps; a_sps_units : list (list Z); a_pps_units : list (list Z) }.
Definition get_set {A} (p : getter A) : getter (list Z * A) :=
  let* n := getb 16 in
  if 256 <? n then gub else
  let* u := rep (Z.to_nat n) (getb 8) in fun s => bindo (parse_nal p u) (fun x => Ok ((u, x), s)).
Definition get_avcc : getter avcc :=
  let* _ := getb 8 in let* profile := getb 8 in let* compat := getb 8 in let* level := getb 8 in
  let* _ := getb 6 in let* size := getb 2 in let* _ := getb 3 in
  let* n := getb 5 in let* ss := rep (Z.to_nat n) (get_set get_sps) in
  let* m := getb 8 in let* ps := rep (Z.to_nat m) (get_set get_pps) in
  gret (mkAvcc profile compat level size (map snd ss) (map snd ps) (map fst ss) (map fst ps)).
(** the accessors 612-622 with idx = 0: the bytes are those of the last unit (as far as they go),
    the length that of the first *)
Definition overlay (old new : list Z) : list Z := new ++ skipn (length new) old.
Definition get_sequence (a : avcc) : list Z := firstn (length (hd [] (a_sps_units a))) (fold_left overlay (a_sps_units a) []).
Definition get_picture (a : avcc) : list Z := firstn (length (hd [] (a_pps_units a))) (fold_left overlay (a_pps_units a) []).
Definition get_nal_length_size (a : avcc) : Z := a_size a + 1.

(** mp4write.h 1838-1860 with set_sps, set_pps (mp4.fl 624-644) and put: width, height and the
    record.  The units must fit the arrays of 256 bytes. *)
Definition be16 (v : Z) : list Z := [v / 256 mod 256; v mod 256].
Definition b2z (b : bool) : Z := if b then 1 else 0.
Definition put_avcc (profile compat level : Z) (sps pps : list Z) : list Z :=
  [1; profile mod 256; compat mod 256; level mod 256; 255; 225] ++ be16 (Z.of_nat (length sps)) ++ sps ++ [1] ++ be16 (Z.of_nat (length pps)) ++ pps.
(** 1840-1845: the operator is ||, not | *)
Definition compatibility (q : sps) : Z :=
  let '(c0, c1, c2, c3) := q_constraints q in b2z (negb (c0 * 128 =? 0) || negb (c1 * 64 =? 0) || negb (c2 * 32 =? 0) || negb (c3 * 16 =? 0) || negb (q_reserved q =? 0)).
Definition record_of (sps pps : list Z) : outcome (Z * Z * list Z) :=
  bindo (parse_nal get_sps sps) (fun q =>
  if Nat.leb (length sps) 256 && Nat.leb (length pps) 256
  then Ok (u32 (16 * u32 (q_width q + 1)), u32 (16 * u32 (q_height q + 1)), put_avcc (q_profile q) (compatibility q) (q_level q) sps pps)
  else UB).
(** mp4write.h 1981-2010: the two units out of codec private data, each after its length of 2
    bytes; UB when the lengths go beyond the data *)
Definition split_private (d : list Z) : option (list Z * list Z) :=
  match d with
  | a :: b :: r =>
    let n := Z.to_nat (a * 256 + b) in
    if Nat.leb (n + 2) (length r) then
      match skipn n r with
      | c :: e :: r' => let m := Z.to_nat (c * 256 + e) in if Nat.leb m (length r') then Some (firstn n r, firstn m r') else None
      | _ => None
      end
    else None
  | _ => None
  end.

(** * Specification vocabulary: ITU-T H.264 7.3.2.1.1, 7.3.2.2, 9.1 and Annex E.1 *)
(** Exp-Golomb codes *)
Definition ue_code (v : Z) : list bool := let n := Z.to_nat (Z.log2 (v + 1)) in repeat false n ++ field_bits (v + 1) (S n).
Definition se_code (v : Z) : list bool := ue_code (if 0 <? v then 2 * v - 1 else - 2 * v).
Definition flag (b : Z) : list bool := [negb (b =? 0)].
Definition when {A} (o : option A) (f : A -> list bool) : list bool := match o with None => [false] | Some x => true :: f x end.
Definition hrd_syntax (h : hrd) : list bool :=
  ue_code (Z.of_nat (length (h_cpb h)) - 1) ++ field_bits (h_rate_scale h) 4 ++ field_bits (h_size_scale h) 4
  ++ concat (map (fun x => let '(r, z, c) := x in ue_code r ++ ue_code z ++ flag c) (h_cpb h))
  ++ field_bits (h_delay h) 5 ++ field_bits (h_removal h) 5 ++ field_bits (h_output h) 5 ++ field_bits (h_offset h) 5.
Definition vui_syntax (u : vui) : list bool :=
  when (u_aspect u) (fun a => field_bits (fst a) 8 ++ match snd a with Some (w, h) => field_bits w 16 ++ field_bits h 16 | None => [] end)
  ++ when (u_overscan u) flag
  ++ when (u_signal u) (fun s => let '(f, r, c) := s in field_bits f 3 ++ flag r ++ when c (fun c => let '(p, t, m) := c in field_bits p 8 ++ field_bits t 8 ++ field_bits m 8))
  ++ when (u_chroma u) (fun c => ue_code (fst c) ++ ue_code (snd c))
  ++ when (u_timing u) (fun t => let '(n, s, f) := t in field_bits n 32 ++ field_bits s 32 ++ flag f)
  ++ when (u_nal u) hrd_syntax ++ when (u_vcl u) hrd_syntax
  ++ (match u_nal u, u_vcl u with None, None => [] | _, _ => flag (u_low u) end)
  ++ flag (u_struct u)
  ++ when (u_limits u) (fun l => let '(m, a, b, c, d, e, f) := l in flag m ++ ue_code a ++ ue_code b ++ ue_code c ++ ue_code d ++ ue_code e ++ ue_code f).
Definition order_syntax (o : order) : list bool :=
  match o with
  | Order0 l => ue_code 0 ++ ue_code l
  | Order1 z a b l => ue_code 1 ++ flag z ++ se_code a ++ se_code b ++ ue_code (Z.of_nat (length l)) ++ concat (map se_code l)
  | OrderOther t => ue_code t
  end.
(** the profiles with chroma format and bit depths *)
Definition high_profiles : list Z := [100; 110; 122; 244; 44; 83; 86; 118; 128; 138; 139; 134; 135].
Definition sps_syntax (s : sps) : list bool :=
  field_bits (q_profile s) 8 ++ (let '(c0, c1, c2, c3) := q_constraints s in flag c0 ++ flag c1 ++ flag c2 ++ flag c3)
  ++ field_bits (q_reserved s) 4 ++ field_bits (q_level s) 8 ++ ue_code (q_id s)
  ++ (match q_high s with
      | Some (f, r, l, c, b, m) => ue_code f ++ (match r with Some r => flag r | None => [] end) ++ ue_code l ++ ue_code c ++ flag b
          ++ flag m ++ (if m =? 0 then [] else repeat false (if f =? 3 then 12 else 8))      (* a scaling matrix: here one where no list is given *)
      | None => [] end)
  ++ ue_code (q_frame_num s) ++ order_syntax (q_order s) ++ ue_code (q_refs s) ++ flag (q_gaps s)
  ++ ue_code (q_width s) ++ ue_code (q_height s) ++ (match q_field s with None => [true] | Some a => false :: flag a end)
  ++ flag (q_direct s) ++ when (q_crop s) (fun c => let '(l, r, t, b) := c in ue_code l ++ ue_code r ++ ue_code t ++ ue_code b)
  ++ when (q_vui s) vui_syntax.
Definition groups_syntax (g : groups) : list bool :=
  match g with
  | OneGroup => ue_code 0
  | Runs l => ue_code (Z.of_nat (length l) - 1) ++ ue_code 0 ++ concat (map ue_code l)
  | Boxes n l => ue_code n ++ ue_code 2 ++ concat (map (fun x => ue_code (fst x) ++ ue_code (snd x)) l)
  | Evolving n t d r => ue_code n ++ ue_code t ++ flag d ++ ue_code r
  | Assigned n l =>                                  (* on the bits the number of groups needs *)
      ue_code n ++ ue_code 6 ++ ue_code (Z.of_nat (length l) - 1) ++ concat (map (fun i => field_bits i (Z.to_nat (Z.log2_up (n + 1)))) l)
  | Other n t => ue_code n ++ ue_code t
  end.
Definition pps_syntax (p : pps) : list bool :=
  ue_code (p_id p) ++ ue_code (p_sps p) ++ flag (p_entropy p) ++ flag (p_order p) ++ groups_syntax (p_groups p)
  ++ ue_code (p_l0 p) ++ ue_code (p_l1 p) ++ flag (p_weighted p) ++ field_bits (p_bipred p) 2
  ++ se_code (p_qp p) ++ se_code (p_qs p) ++ se_code (p_chroma p) ++ flag (p_deblock p) ++ flag (p_intra p) ++ flag (p_redundant p).

(** values in range: ue(v) codes fit 31 bits; flags are 0 or 1 *)
Definition is_ue (v : Z) : Prop := 0 <= v < 2 ^ 31 - 1.
Definition is_se (v : Z) : Prop := - 2 ^ 23 <= v <= 2 ^ 23.
Definition is_flag (v : Z) : Prop := v = 0 \/ v = 1.
Definition is_u (n : nat) (v : Z) : Prop := 0 <= v < 2 ^ Z.of_nat n.
Definition given {A} (P : A -> Prop) (o : option A) : Prop := match o with Some x => P x | None => True end.
Definition hrd_ok (h : hrd) : Prop :=
  (1 <= length (h_cpb h) <= 32)%nat /\ Forall (fun x => let '(r, z, c) := x in is_ue r /\ is_ue z /\ is_flag c) (h_cpb h)
  /\ is_u 4 (h_rate_scale h) /\ is_u 4 (h_size_scale h) /\ is_u 5 (h_delay h) /\ is_u 5 (h_removal h) /\ is_u 5 (h_output h) /\ is_u 5 (h_offset h).
Definition vui_ok (u : vui) : Prop :=
  given (fun a => is_u 8 (fst a) /\ (fst a = 255 <-> snd a <> None) /\ given (fun x => is_u 16 (fst x) /\ is_u 16 (snd x)) (snd a)) (u_aspect u)
  /\ given is_flag (u_overscan u)
  /\ given (fun s => let '(f, r, c) := s in is_u 3 f /\ is_flag r /\ given (fun c => let '(p, t, m) := c in is_u 8 p /\ is_u 8 t /\ is_u 8 m) c) (u_signal u)
  /\ given (fun c => is_ue (fst c) /\ is_ue (snd c)) (u_chroma u)
  /\ given (fun t => let '(n, s, f) := t in is_u 32 n /\ is_u 32 s /\ is_flag f) (u_timing u)
  /\ given hrd_ok (u_nal u) /\ given hrd_ok (u_vcl u) /\ is_flag (u_low u) /\ (u_nal u = None -> u_vcl u = None -> u_low u = 0) /\ is_flag (u_struct u)
  /\ given (fun l => let '(m, a, b, c, d, e, f) := l in is_flag m /\ is_ue a /\ is_ue b /\ is_ue c /\ is_ue d /\ is_ue e /\ is_ue f) (u_limits u).
Definition order_ok (o : order) : Prop :=
  match o with
  | Order0 l => is_ue l
  | Order1 z a b l => is_flag z /\ is_se a /\ is_se b /\ is_ue (Z.of_nat (length l)) /\ Forall is_se l
  | OrderOther t => is_ue t /\ 2 <= t
  end.
(** a sequence parameter set: what the standard allows, but for scaling lists *)
Definition sps_ok (s : sps) : Prop :=
  is_u 8 (q_profile s) /\ (let '(c0, c1, c2, c3) := q_constraints s in is_flag c0 /\ is_flag c1 /\ is_flag c2 /\ is_flag c3) /\ is_u 4 (q_reserved s)
  /\ is_u 8 (q_level s) /\ is_ue (q_id s)
  /\ (In (q_profile s) high_profiles <-> q_high s <> None)
  /\ given (fun x => let '(f, r, l, c, b, m) := x in is_ue f /\ (f = 3 <-> r <> None) /\ given is_flag r /\ is_ue l /\ is_ue c /\ is_flag b /\ is_flag m) (q_high s)
  /\ is_ue (q_frame_num s) /\ order_ok (q_order s) /\ is_ue (q_refs s) /\ is_flag (q_gaps s) /\ is_ue (q_width s) /\ is_ue (q_height s)
  /\ given is_flag (q_field s) /\ is_flag (q_direct s)
  /\ given (fun c => let '(l, r, t, b) := c in is_ue l /\ is_ue r /\ is_ue t /\ is_ue b) (q_crop s) /\ given vui_ok (q_vui s).
(** without a scaling matrix *)
Definition no_matrix (s : sps) : Prop := given (fun x => snd x = 0) (q_high s).
Definition groups_ok (g : groups) : Prop :=
  match g with
  | OneGroup => True
  | Runs l => (2 <= length l <= 8)%nat /\ Forall is_ue l
  | Boxes n l => 1 <= n <= 7 /\ Z.of_nat (length l) = n /\ Forall (fun x => is_ue (fst x) /\ is_ue (snd x)) l
  | Evolving n t d r => 1 <= n <= 7 /\ 3 <= t <= 5 /\ is_flag d /\ is_ue r
  | Assigned n l => 1 <= n <= 7 /\ l <> [] /\ Forall (fun i => 0 <= i <= n) l
  | Other n t => 1 <= n <= 7 /\ t = 1
  end.
Definition pps_ok (p : pps) : Prop :=
  is_ue (p_id p) /\ is_ue (p_sps p) /\ is_flag (p_entropy p) /\ is_flag (p_order p) /\ groups_ok (p_groups p) /\ is_ue (p_l0 p) /\ is_ue (p_l1 p) /\ is_flag (p_weighted p) /\ is_u 2 (p_bipred p)
  /\ is_se (p_qp p) /\ is_se (p_qs p) /\ is_se (p_chroma p) /\ is_flag (p_deblock p) /\ is_flag (p_intra p) /\ is_flag (p_redundant p).
(** the bytes of a syntax structure: the stop bit and zeros up to a whole byte *)
Definition is_rbsp (r : list Z) (syntax : list bool) : Prop := bytes r /\ exists d, (d < 8)%nat /\ bytes_bits r = syntax ++ true :: repeat false d.
(** a NAL unit of [type]: header and escaped payload *)
Definition is_unit (type : Z) (u r : list Z) : Prop := exists h, is_byte h /\ h mod 32 = type /\ u = h :: escape 0 r.
(** what unsigned members keep of signed offsets *)
Definition wrapped (o : order) : order := match o with Order1 z a b l => Order1 z (a mod 2 ^ 32) (b mod 2 ^ 32) (map (fun x => x mod 2 ^ 32) l) | _ => o end.
Definition read_as (s : sps) : sps :=
  mkSps (q_profile s) (q_constraints s) (q_reserved s) (q_level s) (q_id s) (q_high s) (q_frame_num s) (wrapped (q_order s)) (q_refs s) (q_gaps s) (q_width s) (q_height s) (q_field s) (q_direct s) (q_crop s) (q_vui s).
(** a NAL unit with a parameter set; the last byte of the payload is not 3 *)
Definition carries (type : Z) (u : list Z) (syntax : list bool) : Prop := exists r, is_rbsp r syntax /\ is_unit type u r /\ last r 0 <> 3.
(** the sets the reader is made for *)
Definition sps_known (s : sps) : Prop := sps_ok s /\ no_matrix s /\ (100 <= q_profile s <-> In (q_profile s) high_profiles).
Definition pps_known (p : pps) : Prop := pps_ok p /\ forall n l, p_groups p <> Assigned n l.
(** width and height of the pictures: 7.4.2.1.1 *)
Definition crop_units (s : sps) : Z * Z :=
  let c := match q_high s with Some (f, _, _, _, _, _) => f | None => 1 end in
  ((if (c =? 1) || (c =? 2) then 2 else 1), (if c =? 1 then 2 else 1) * (match q_field s with None => 1 | Some _ => 2 end)).
Definition shown (s : sps) : Z * Z :=
  let '(l, r, t, b) := match q_crop s with Some c => c | None => (0, 0, 0, 0) end in
  (16 * (q_width s + 1) - fst (crop_units s) * (l + r), (match q_field s with None => 1 | Some _ => 2 end) * 16 * (q_height s + 1) - snd (crop_units s) * (t + b)).
(** AVCDecoderConfigurationRecord: ISO/IEC 14496-15, 5.2.4.1 *)
Definition with_length (u : list Z) : list Z := [Z.of_nat (length u) / 256; Z.of_nat (length u) mod 256] ++ u.
Definition record_syntax (profile compat level size : Z) (ss ps : list (list Z)) : list Z :=
  [1; profile; compat; level; 252 + size; 224 + Z.of_nat (length ss)] ++ concat (map with_length ss) ++ [Z.of_nat (length ps)] ++ concat (map with_length ps).
