(** What the fragments mg writes should look like to other programs.  The model of the writer is
    end_fragment of Frag_model (CMP4Fragment::end, /repo/src/mg/media/mp4fragmented.h 413-565); the
    layouts of the standard are those of Foreign_model; this file holds only the specification. *)
From Verif Require Import Util SampleTab_model Box_model HlsCrypt_model Cenc_model Frag_model Defrag_model Foreign_model Sealed_model.
Local Open Scope Z_scope.

(** * Specification vocabulary *)
Section Scale.
  Variable scale : Z -> Z -> Z.
  (** a sample given to the writer, in ticks: its body, its duration, and for video how far its
      composition time is from its decoding time *)
  Definition given (ts : Z) (video : bool) (s : sample) : xsample :=
    mkX (s_body s) (ticks scale ts (s_dur s)) 0 (if video then ticks scale ts (s_comp s - s_dec s) else 0).
  (** what a fragment should say: version 1 of tfdt and trun, the data offset counted from the moof,
      no defaults, and for each sample duration, size and, for video, composition offset *)
  Definition says (st : setting) (base : Z) (l : list sample) (x : foreign) : Prop :=
    let video := 0 <? first_flags st in
    o_seq x = sequence st /\ o_track x = track st /\ o_head x = mkH false None None None None 0 /\ o_tfdt x = 1 /\ o_base x = base
    /\ o_run x = mkU 1 true (if video then Some (first_flags st) else None) true true false video 0
    /\ o_samples x = map (given (timescale st) video) l.
  (** the same of an encrypted fragment, whose samples are sealed with [locks] *)
  Definition says_sealed (st : setting) (base : Z) (l : list sample) (x : foreign) (locks : list lock) : Prop :=
    let video := 0 <? first_flags st in
    o_seq x = sequence st /\ o_track x = track st /\ o_head x = mkH false None None None None 0 /\ o_tfdt x = 1 /\ o_base x = base
    /\ o_run x = mkU 1 true (if video then Some (first_flags st) else None) true true false video 0
    /\ length locks = length l /\ opened (o_samples x) (map plain_of locks) = map (given (timescale st) video) l.
End Scale.
(** the vectors are counted up from the first one *)
Fixpoint consecutive (v : Z) (locks : list lock) : Prop := match locks with [] => True | k :: r => l_vector k = v /\ consecutive ((v + 1) mod 2 ^ 64) r end.
