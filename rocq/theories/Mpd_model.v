(** Model of the DASH manifest writer, /repo/src/mg/media/mpd_renderer.h: duration (68-87),
    segment timeline (89-101, 242-321), codec name (136-155).  Text is a list of character
    codes; unsigned 64-bit times. *)
From Coq Require Import String.
From Verif Require Import Util Dec_spec Str_model.
Local Open Scope Z_scope.

Definition CRLF : list Z := [13; 10].
Definition TAB4 : list Z := [9; 9; 9; 9].

(** 70, 80-84: the value of mediaPresentationDuration *)
Definition duration_text (duration : Z) : list Z :=
  str "PT" ++ dec (duration / 10000000) ++ str "." ++ dec (duration mod 1000000) ++ str "S".

(** _current_stream_time, _last_stream_duration, _last_stream_count, _points_xml *)
Record mpd := mkmpd { m_time : Z; m_dur : Z; m_count : Z; m_xml : list Z }.
(** 95, 99-101 *)
Definition begin_stream : mpd := mkmpd 0 0 0 [].
(** 252-260 and 311-318: the run written out *)
Definition run_text (dur count : Z) : list Z :=
  TAB4 ++ str "<S d=""" ++ dec dur ++ (if 1 <? count then str """ r=""" ++ dec (count - 1) else []) ++ str """ />" ++ CRLF.
(** 242-294 *)
Definition add_point (m : mpd) (computed_time duration : Z) : mpd :=
  let m :=
    if negb (m_dur m =? duration) || negb (computed_time =? m_time m) || (0 =? m_time m) then
      if (negb (computed_time =? m_time m) || negb (m_dur m =? duration)) && (0 <? m_count m)
      then mkmpd (m_time m) 0 0 (m_xml m ++ run_text (m_dur m) (m_count m)) else m
    else m in
  let m :=
    if negb (computed_time =? m_time m)
    then mkmpd computed_time 0 (m_count m)
         (m_xml m ++ TAB4 ++ str "<S d=""" ++ dec duration ++ str """ t=""" ++ dec computed_time ++ str """ />" ++ CRLF)
    else mkmpd (m_time m) duration (m_count m + 1) (m_xml m) in
  mkmpd ((m_time m + duration) mod 2 ^ 64) (m_dur m) (m_count m) (m_xml m).
(** 307-321 *)
Definition end_stream (m : mpd) : mpd :=
  if 0 <? m_count m then mkmpd (m_time m) (m_dur m) 0 (m_xml m ++ run_text (m_dur m) (m_count m)) else m.
(** the content of SegmentTimeline (358-362) for the points given *)
Definition timeline_text (pts : list (Z * Z)) : list Z :=
  m_xml (end_stream (fold_left (fun m p => add_point m (fst p) (snd p)) pts begin_stream)).

(** 138-155 and hls_renderer.h 119-135: the codec name from the private data (length of the
    SPS in 2 bytes, then the SPS).  [a || b] is 0 or 1. *)
Definition compatibility (c : Z) : Z :=
  if negb (Z.shiftr (Z.land c 0x80) 7 =? 0) || negb (Z.shiftl (Z.land c 0x40) 6 =? 0)
     || negb (Z.shiftl (Z.land c 0x20) 5 =? 0) || negb (Z.shiftl (Z.land c 0x10) 4 =? 0) then 1 else 0.
Definition codec_name (private_data : list Z) : list Z :=
  let s := append_hex_buffer (str "avc1.") [nth 3 private_data 0] in
  let s := append_hex_buffer s [compatibility (nth 4 private_data 0)] in
  append_hex_buffer s [nth 5 private_data 0].

(** * Specification vocabulary: reading the manifest *)
(** An S element of a SegmentTimeline (ISO/IEC 23009-1, 5.3.9.6): duration, start if given,
    repeat count (0 if absent). *)
Record selt := mkS { s_d : Z; s_t : option Z; s_r : Z }.
(** the segments it stands for, from the end of the previous ones *)
Fixpoint repeated (n : nat) (t d : Z) : list (Z * Z) := match n with O => [] | S k => (t, d) :: repeated k (t + d) d end.
Fixpoint segments (prev_end : Z) (l : list selt) : list (Z * Z) :=
  match l with
  | [] => []
  | s :: r => let t := match s_t s with Some t => t | None => prev_end end in
    repeated (S (Z.to_nat (s_r s))) t (s_d s) ++ segments (t + s_d s * (s_r s + 1)) r
  end.
(** XML text of S elements *)
Fixpoint strip (p l : list Z) : option (list Z) :=
  match p, l with [], _ => Some l | x :: p', y :: l' => if x =? y then strip p' l' else None | _, [] => None end.
Fixpoint span_digits (l : list Z) : list Z * list Z :=
  match l with
  | [] => ([], [])
  | c :: r => if (48 <=? c) && (c <=? 57) then let '(a, b) := span_digits r in (c :: a, b) else ([], l)
  end.
Definition number (l : list Z) : option (Z * list Z) :=
  match span_digits l with ([], _) => None | (d, r) => Some (undec d, r) end.
Definition obind {A B} (x : option A) (f : A -> option B) : option B := match x with Some a => f a | None => None end.
Definition read_selt (l : list Z) : option (selt * list Z) :=
  obind (strip (TAB4 ++ str "<S d=""") l) (fun l => obind (number l) (fun '(d, l) =>
  let close s l := obind (strip (str """ />" ++ CRLF) l) (fun l => Some (s, l)) in
  match strip (str """ t=""") l with
  | Some l => obind (number l) (fun '(t, l) => close (mkS d (Some t) 0) l)
  | None => match strip (str """ r=""") l with
    | Some l => obind (number l) (fun '(r, l) => close (mkS d None r) l)
    | None => close (mkS d None 0) l
    end
  end)).
Fixpoint read_timeline (fuel : nat) (l : list Z) : option (list selt) :=
  match l with [] => Some [] | _ =>
    match fuel with O => None | S k => obind (read_selt l) (fun '(s, l) => obind (read_timeline k l) (fun r => Some (s :: r))) end
  end.
Definition timeline (l : list Z) : option (list selt) := read_timeline (length l) l.
(** [reads_as t num den]: the text is PT<digits>.<digits>S and the number of seconds is num/den *)
Definition decimal (ip fp : list Z) (num den : Z) : Prop :=
  (undec ip * 10 ^ zlen fp + undec fp) * den = num * 10 ^ zlen fp.
(** a segment (start, duration) in unsigned 64 bits *)
Definition pt_ok (p : Z * Z) : Prop := 0 <= fst p /\ 0 <= snd p /\ fst p + snd p < 2 ^ 64.
