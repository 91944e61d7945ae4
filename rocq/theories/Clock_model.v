(** Specification of the clock references of a segment (Seg_model): program_clock_reference of
    ISO 13818-1, 2.4.3.4, read off the bytes of the packets. *)
From Verif Require Import Util Bits_spec TsTime_model Ts_model TsSect_model Es_model TsDemux_model Seg_model.
Local Open Scope Z_scope.

(** * Specification vocabulary *)
(** PID, base and extension of the references in these packets *)
Definition clock_refs (ps : list (list Z)) : list (Z * Z * Z) :=
  flat_map (fun p => if iso_pcr_flag p =? 1 then [(iso_pid p, iso_pcr_base p, iso_pcr_ext p)] else []) ps.
(** the reference a sample is to have: its decoding time in units of 90 kHz, if it is a key frame of
    a video stream *)
Definition call_refs (g : config) (c : call) : list (Z * Z * Z) :=
  match nth_error (g_streams g) (c_stream c) with
  | Some (SVideo _ _) => if c_key c then [(0x100 + Z.of_nat (c_stream c), (c_dec c + g_decode g) / 10000 * 90 mod 2 ^ 33, 0)] else []
  | _ => []
  end.
Definition is_video (s : strm) : Prop := match s with SVideo _ _ => True | _ => False end.
