(** Model of common encryption in fragments, /repo/src/mg/media/mp4fragmented.h 129-191 (encrypt),
    208-260 (counter8, counter), 282-299 (set_encryption), 364-405 (add_sample), and of its
    inverse, decrypt of /repo/src/mgcli/mp4info.cpp 3816-3900, with HAVE_LIBGYPAES.  The block
    cipher with the key is any function on blocks of 16 bytes; aes_ctr_encrypt and aes_ctr_decrypt
    (a library) are counter mode: the block counter is encrypted and xored into each block of up to
    16 bytes, then moved on by the function given.  The random start of _iv (fillrand) is any 8
    bytes. *)
From Verif Require Import Util SampleTab_model HlsCrypt_model Box_model.
Local Open Scope Z_scope.

(** counter8 208-235, on 8 bytes *)
Definition counter8 (c : list Z) : list Z :=
  let b i := nth i c 0 in
  let tmp := Z.lor (Z.lor (Z.lor (Z.land (Z.shiftl (b 0%nat) 24) 4278190080) (Z.land (Z.shiftl (b 1%nat) 16) 16711680)) (Z.land (Z.shiftl (b 2%nat) 8) 65280)) (Z.land (b 3%nat) 255) in
  let val := Z.lor (Z.lor (Z.lor (Z.land (Z.shiftl (b 4%nat) 24) 4278190080) (Z.land (Z.shiftl (b 5%nat) 16) 16711680)) (Z.land (Z.shiftl (b 6%nat) 8) 65280)) (Z.land (b 7%nat) 255) in
  let val := Z.lor val (Z.land (Z.shiftl tmp 32) 18446744069414584320) in
  let val := u64 (val + 1) in
  map (fun s => Z.land (Z.shiftr val s) 255) [56; 48; 40; 32; 24; 16; 8; 0].
(** counter 237-260, on 16 bytes *)
Definition counter (c : list Z) : list Z :=
  if forallb (fun x => x =? 255) (skipn 8 c) then counter8 (firstn 8 c) ++ repeat 0 8
  else firstn 8 c ++ counter8 (skipn 8 c).
Section Cipher.
  Variable E : list Z -> list Z.
  (** counter mode on [n] blocks, the last may be short; the counter afterwards *)
  Fixpoint ctr (n : nat) (cbuf data : list Z) : list Z * list Z :=
    match n with
    | O => ([], cbuf)
    | S n => let '(r, c) := ctr n (counter cbuf) (skipn 16 data) in (xor_bytes (firstn 16 data) (E cbuf) ++ r, c)
    end.
  Definition nblocks (len : Z) : nat := Z.to_nat ((len + 15) / 16).
  (** an entry of the senc box: the 8 bytes of init_vector and, for the one sub sample, the
      numbers of clear and of protected bytes *)
  Record entry := mkE { e_iv : list Z; e_clear : Z; e_protected : Z }.
  (** encrypt 129-191: the body, the entry and _iv for the next sample *)
  Definition encrypt (iv body : list Z) (clear protected : Z) : list Z * entry * list Z :=
    let c := firstn (Z.to_nat clear) body in
    let p := firstn (Z.to_nat protected) (skipn (Z.to_nat clear) body) in
    let rest := skipn (Z.to_nat protected) (skipn (Z.to_nat clear) body) in
    let out := if protected =? 0 then p else fst (ctr (nblocks protected) (iv ++ repeat 0 8) p) in
    (c ++ out ++ rest, mkE iv clear protected, counter8 iv).
  (** add_sample 364-405; [sub] = 0x000002 in the flags given (video).  Without, flags are set to
      0x000002 while encrypting (396-403), so that an entry has a sub sample in any case *)
  Definition encrypt_sample (sub : bool) (iv body : list Z) : list Z * entry * list Z :=
    let size := zlen body in
    if sub then
      if size <=? 96 + 16 then encrypt iv body size 0
      else let clear := 96 + size mod 16 in encrypt iv body clear (size - clear)
    else encrypt iv body 0 size.
  (** the samples of a fragment, one after the other *)
  Fixpoint encrypt_samples (sub : bool) (iv : list Z) (l : list (list Z)) : list (list Z * entry) :=
    match l with
    | [] => []
    | body :: l => let '(out, e, iv') := encrypt_sample sub iv body in (out, e) :: encrypt_samples sub iv' l
    end.
  (** mp4info.cpp 3846-3884: the sub samples of an entry, the counter going on from one to the next
      (whole blocks) *)
  Fixpoint decrypt_sub (cbuf : list Z) (subs : list (Z * Z)) (src : list Z) : list Z :=
    match subs with
    | [] => []
    | (clear, prot) :: subs =>
      let c := firstn (Z.to_nat clear) src in
      let src := skipn (Z.to_nat clear) src in
      if prot =? 0 then c ++ decrypt_sub cbuf subs src
      else let '(p, cbuf) := ctr (nblocks prot) cbuf (firstn (Z.to_nat prot) src) in c ++ p ++ decrypt_sub cbuf subs (skipn (Z.to_nat prot) src)
    end.
  (** decrypt 3816-3900; [subs] as read from the senc box *)
  Definition decrypt (iv : list Z) (subs : list (Z * Z)) (src : list Z) : list Z :=
    match subs with
    | [] => fst (ctr (nblocks (zlen src)) (iv ++ repeat 0 8) src)
    | _ => decrypt_sub (iv ++ repeat 0 8) subs src
    end.
End Cipher.

(** * Specification vocabulary *)
(** The [i]-th key stream block of the sample with the initialisation vector [v] is the
    encryption of [v] and [i], 8 bytes each (ISO/IEC 23001-7, 9.3). *)
Definition counter_block (v i : Z) : list Z := be 8 v ++ be 8 i.
Definition key_stream (E : list Z -> list Z) (v : Z) (n : nat) : list Z := concat (map (fun i => E (counter_block v i)) (zseq 0 n)).
Definition is_iv (iv : list Z) : Prop := length iv = 8%nat /\ bytes iv.
(** a block cipher gives 16 bytes *)
Definition cipher (E : list Z -> list Z) : Prop := forall b, length (E b) = 16%nat.
