(** The check of the samples put into fragments: CMP4FragmentValidation
    (/repo/src/mgcli/fragment_validation.h 24-93), and the calls made to it
    (/repo/src/mg/media/mp4fragmented.h 651-688, compiled where _DEBUG is defined; the same object
    for all streams, bit rates and files: /repo/src/mgcli/mp4info.cpp 5536-5552, 5666, 5683). *)
From Coq Require Import List ZArith Lia Bool.
From Verif Require Import Util.
Import ListNotations.
Local Open Scope Z_scope.

(** The calls: using_sample_in_fragment (of the sample only stream and sample_number are looked
    at) and end_sample_in_fragment(stream_id, total_sample) *)
Inductive call := Using (stream number : Z) | Finished (stream total : Z).
(** What is written out (63-67 and 75-79).  Where assertions are on, the _ASSERTE before it (62,
    74) ends the program instead. *)
Inductive report := MissingAtTheEnd (total last : Z) | MissingInTheMiddle (before last : Z).
(** 24: STREAM_MAX *)
Definition STREAM_MAX : nat := 16.
(** UINT64_MAX *)
Definition NONE : Z := 2 ^ 64 - 1.
(** 29-30: _last_sample_number, _total_samples *)
Record validation := mkV { v_last : list Z; v_total : list Z }.
(** 34-41 *)
Definition validation0 : validation := mkV (repeat NONE STREAM_MAX) (repeat NONE STREAM_MAX).
(** a[i] of a C array; None = outside *)
Definition index (l : list Z) (i : Z) : option Z := if i <? 0 then None else nth_error l (Z.to_nat i).
(** a[i] = v, inside *)
Definition assign (l : list Z) (i v : Z) : list Z := firstn (Z.to_nat i) l ++ v :: skipn (S (Z.to_nat i)) l.
(** 48-85 *)
Definition using_sample (v : validation) (stream number : Z) : option (validation * list report) :=
  match index (v_last v) stream, index (v_total v) stream with
  | Some last, Some total =>
    let out :=
      if last =? NONE then []
      else if number =? 0 then (if (total - 1) mod 2 ^ 64 =? last then [] else [MissingAtTheEnd total last])
      else (if (number - 1) mod 2 ^ 64 =? last then [] else [MissingInTheMiddle ((number - 1) mod 2 ^ 64) last]) in
    Some (mkV (assign (v_last v) stream number) (v_total v), out)
  | _, _ => None
  end.
(** 89-92 *)
Definition end_sample (v : validation) (stream total : Z) : option (validation * list report) :=
  match index (v_total v) stream with
  | Some _ => Some (mkV (v_last v) (assign (v_total v) stream total), [])
  | None => None
  end.
Definition step (v : validation) (c : call) : option (validation * list report) :=
  match c with Using s n => using_sample v s n | Finished s t => end_sample v s t end.
(** The calls one after the other *)
Fixpoint run (v : validation) (cs : list call) : option (validation * list report) :=
  match cs with
  | [] => Some (v, [])
  | c :: cs =>
    match step v c with
    | None => None
    | Some (v, out) => match run v cs with Some (w, more) => Some (w, out ++ more) | None => None end
    end
  end.
(** What is reported in all; None = outside of an array *)
Definition validate (cs : list call) : option (list report) := option_map snd (run validation0 cs).
(** mp4fragmented.h 609-688 as far as the callback goes: the calls of a piece made of the samples
    with these numbers of a file with [total] samples in the stream *)
Definition piece_calls (stream total : Z) (numbers : list Z) : list call := map (Using stream) numbers ++ [Finished stream total].

(** The calls for the pieces of one file *)
Definition file_calls (stream : Z) (pieces : list (list Z)) : list call := concat (map (piece_calls stream (Z.of_nat (length (concat pieces)))) pieces).

(** * Specification vocabulary *)
(** The calls are possible: at most 16 streams, numbers as they are *)
Definition possible (c : call) : Prop :=
  match c with Using s n => 0 <= s < 16 /\ 0 <= n < 2 ^ 63 | Finished s t => 0 <= s < 16 /\ 0 <= t < 2 ^ 63 end.
(** The number of the last sample of a stream used in these calls *)
Definition last_used (s : Z) (cs : list call) : option Z :=
  fold_left (fun a c => match c with Using s' n => if s' =? s then Some n else a | _ => a end) cs None.
(** How many samples the last file read for a stream was said to hold *)
Definition last_total (s : Z) (cs : list call) : option Z :=
  fold_left (fun a c => match c with Finished s' t => if s' =? s then Some t else a | _ => a end) cs None.
(** A sample [b] may follow the sample [a] of the same stream: it is the next one, or the first one
    after the last one of a file *)
Definition follows (a b : Z) (total : option Z) : Prop := b = a + 1 \/ (b = 0 /\ total = Some (a + 1)).
(** The calls which are about stream [s] *)
Definition of_stream (s : Z) (cs : list call) : list call := filter (fun c => match c with Using s' _ => s' =? s | Finished s' _ => s' =? s end) cs.
(** The numbers 0, 1, ..., n - 1 *)
Definition numbers (n : nat) : list Z := map Z.of_nat (seq 0 n).
(** A file cut without loss, with samples in its first piece *)
Definition well_cut (pieces : list (list Z)) : Prop :=
  concat pieces = numbers (length (concat pieces)) /\ (exists p ps, pieces = p :: ps /\ p <> []) /\ Z.of_nat (length (concat pieces)) < 2 ^ 63.
