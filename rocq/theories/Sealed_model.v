(** Encrypted fragments that other programs write: common encryption with the scheme cenc, ISO/IEC
    23001-7.  The model of the reader is read_file of Frag_model (do_moof_mux and decrypt,
    /repo/src/mgcli/mp4info.cpp 3816-3900 and 4053-4155; MOOFReader.h; cenc.fl 128-285); this file
    holds only the specification: what such a fragment may hold. *)
From Verif Require Import Util SampleTab_model Box_model HlsCrypt_model Cenc_model Frag_model Defrag_model Foreign_model.
Local Open Scope Z_scope.

(** * Specification vocabulary *)
(** what is sealed of a sample: its vector, and its parts, each of clear bytes and of bytes to be
    protected *)
Record lock := mkL { l_vector : Z; l_parts : list (list Z * list Z) }.
Definition plain_of (k : lock) : list Z := concat (map (fun p => fst p ++ snd p) (l_parts k)).
(** the protected bytes of all parts, one after the other, are one stream, xored with the key
    stream; the clear bytes stay (9.5) *)
Definition sealed (E : list Z -> list Z) (k : lock) (body : list Z) : Prop :=
  let stream := concat (map snd (l_parts k)) in
  exists hidden, map (@length Z) hidden = map (fun p => length (snd p)) (l_parts k)
    /\ concat hidden = xor_bytes stream (key_stream E (l_vector k) (length stream))
    /\ body = concat (map (fun '(p, h) => fst p ++ h) (combine (l_parts k) hidden)).
(** protected parts are whole blocks, but for the last that is not empty *)
Fixpoint whole_blocks (l : list (list Z * list Z)) : Prop :=
  match l with [] => True | p :: l => (zlen (snd p) mod 16 = 0 \/ concat (map snd l) = []) /\ whole_blocks l end.
Definition lock_ok (listed : bool) (k : lock) : Prop :=
  0 <= l_vector k < 2 ^ 64 /\ whole_blocks (l_parts k) /\ zlen (concat (map snd (l_parts k))) < 2 ^ 32
  /\ if listed then l_parts k <> [] /\ zlen (l_parts k) < 2 ^ 16 /\ Forall (fun p => zlen (fst p) < 2 ^ 16 /\ zlen (snd p) < 2 ^ 32) (l_parts k)
     else exists p, l_parts k = [([], p)].
(** the senc box: vectors of 8 bytes, with the sizes of the parts if [listed] *)
Definition entry_bytes (listed : bool) (k : lock) : list Z :=
  be 8 (l_vector k) ++ if listed then be 2 (zlen (l_parts k)) ++ concat (map (fun p => be 2 (zlen (fst p)) ++ be 4 (zlen (snd p))) (l_parts k)) else [].
Definition senc_content (listed : bool) (l : list lock) : list Z := be 1 0 ++ be 3 (bit listed 1) ++ be 4 (zlen l) ++ concat (map (entry_bytes listed) l).
(** saiz and saio boxes, with or without the type of the information; what they say is not looked at *)
Definition saiz_like (content : list Z) : Prop :=
  exists kind size n rest, content = be 1 0 ++ be 3 (bit (there kind) 0) ++ opt 8 kind ++ be 1 size ++ be 4 n ++ rest /\ 0 <= size < 256 /\ 0 <= n < 2 ^ 32 /\ zlen rest = (if size =? 0 then n else 0).
Definition saio_like (content : list Z) : Prop :=
  exists version kind n rest, content = be 1 version ++ be 3 (bit (there kind) 0) ++ opt 8 kind ++ be 4 n ++ rest /\ 0 <= version <= 1 /\ 0 <= n < 2 ^ 32 /\ zlen rest = (if version =? 0 then 4 else 8) * n.
(** boxes beside the senc *)
Definition beside (b : Z * list Z) : Prop :=
  0 <= fst b < 2 ^ 32 /\ 8 + zlen (snd b) < 2 ^ 32 /\ (~ In (fst b) known \/ fst b = SAIZ /\ saiz_like (snd b) \/ fst b = SAIO /\ saio_like (snd b)).
(** a fragment [x] whose samples are sealed with [locks]: after the run a senc among other boxes *)
Definition sealed_ok (E : list Z -> list Z) (x : foreign) (locks : list lock) : Prop :=
  others_ok (o_before x) /\ others_ok (o_inside x) /\ fields_ok x
  /\ exists listed a b, o_after x = a ++ (SENC, senc_content listed locks) :: b /\ Forall beside a /\ Forall beside b
    /\ Forall (lock_ok listed) locks /\ 8 + zlen (senc_content listed locks) < 2 ^ 32
    /\ Forall2 (fun s k => sealed E k (x_body s)) (o_samples x) locks.
(** the samples with these bodies *)
Definition opened (l : list xsample) (bodies : list (list Z)) : list xsample := map (fun t => mkX (snd t) (x_dur (fst t)) (x_flags (fst t)) (x_cts (fst t))) (combine l bodies).
