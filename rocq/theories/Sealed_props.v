(** Property C93: encrypted fragments of other programs are decrypted as the standard says. *)
From Verif Require Import Util SampleTab_model Box_model HlsCrypt_model Cenc_model Frag_model Defrag_model Foreign_model Foreign_proofs Sealed_model Sealed_proofs.
Local Open Scope Z_scope.

(** A file of any number of encrypted fragments (scheme cenc, vectors of 8 bytes), each with any
    choice of the optional fields as for clear ones, with the sizes of the parts listed or not, with
    saiz and saio boxes or without: read with the key, every fragment gives its samples with the
    bodies that were sealed. *)
Theorem C93_read : forall E l f locks, cipher E -> foreign_file 0 l f -> Forall2 (sealed_ok E) l locks -> zlen f < 2 ^ 60 ->
  read_file (Some E) f = Some (map (fun t => timed (o_base (fst t)) (opened (o_samples (fst t)) (map plain_of (snd t)))) (combine l locks)).
Proof. exact sealed_read. Qed.
Print Assumptions C93_read.
(** one sample: any number of parts *)
Theorem C93_sample : forall E listed k body, cipher E -> lock_ok listed k -> sealed E k body -> decrypt E (be 8 (l_vector k)) (listed_sizes listed k) body = plain_of k.
Proof. exact unlock_sample. Qed.
Print Assumptions C93_sample.

Definition ex_key (b : list Z) : list Z := map (fun x => (7 * x + 3) mod 256) (firstn 16 (b ++ repeat 0 16)).
Lemma ex_cipher : cipher ex_key. Proof. intros b. unfold ex_key. rewrite map_length, firstn_length, app_length, repeat_length. lia. Qed.
(** the stream cut again at the ends of the protected parts *)
Fixpoint cut (sizes : list nat) (b : list Z) : list (list Z) := match sizes with [] => [] | n :: r => firstn n b :: cut r (skipn n b) end.
Definition hide (k : lock) : list Z :=
  let stream := concat (map snd (l_parts k)) in
  concat (map (fun '(p, h) => fst p ++ h) (combine (l_parts k) (cut (map (fun p => length (snd p)) (l_parts k)) (xor_bytes stream (key_stream ex_key (l_vector k) (length stream)))))).
Ltac ex_sealed := match goal with |- sealed _ ?k _ => exists (cut (map (fun p => length (snd p)) (l_parts k)) (xor_bytes (concat (map snd (l_parts k))) (key_stream ex_key (l_vector k) (length (concat (map snd (l_parts k))))))); split; [vm_compute; reflexivity|]; split; [vm_compute; reflexivity|]; vm_compute; reflexivity end.

(** a video sample of three parts, the last clear; one of a single clear part; then audio, sealed as a whole *)
Definition lock_a : lock := mkL 18446744073709551615 [([0;0;0;5;101], zseq 1 32); ([7;7], [200;201;202]); ([9], [])].
Definition lock_b : lock := mkL 3 [([1;2;3], [])].
Definition lock_c : lock := mkL 4 [([], zseq 50 21)].
Definition ex_saiz : Z * list Z := (SAIZ, be 1 0 ++ be 3 0 ++ be 1 0 ++ be 4 2 ++ [28; 16]).
Definition ex_saio : Z * list Z := (SAIO, be 1 1 ++ be 3 1 ++ be 4 1667591779 ++ be 4 0 ++ be 4 1 ++ be 8 200).
Definition ex_pssh : Z * list Z := (1886614376, [0; 1; 2]).
Definition ex_video : foreign := mkFo [(1718909296, [105;115;111;109;0;0;0;0])] 1 1 (mkH false None (Some 3000) None (Some 16842752) 2) 0 900 [] (mkU 0 true None false true false true 0)
  [ex_saiz; ex_saio; (SENC, senc_content true [lock_a; lock_b])] [mkX (hide lock_a) 3000 16842752 6000; mkX (hide lock_b) 3000 16842752 0].
Definition ex_audio : foreign := mkFo [] 2 2 (mkH false None None None None 2) 1 6900 [] (mkU 1 true None true true false false 0)
  [(SENC, senc_content false [lock_c]); ex_pssh] [mkX (hide lock_c) 1024 0 0].
Definition part (x : foreign) (start : Z) : list Z :=
  let b := other_boxes (o_before x) in b ++ moof_of x (start + zlen b) (zlen (moof_of x 0 0) + 8) ++ a_box [109; 100; 97; 116] (concat (map x_body (o_samples x))).
Lemma part_ok : forall x start, laid_out x start (part x start).
Proof. intros. eexists. split; [|reflexivity]. f_equal. f_equal. apply moof_zlen. Qed.
Lemma not_known : forall t, forallb (fun k => negb (t =? k)) known = true -> ~ In t known.
Proof. intros t H K. rewrite forallb_forall in H. specialize (H t K). rewrite Z.eqb_refl in H. discriminate. Qed.
Lemma ex_saiz_like : saiz_like (snd ex_saiz).
Proof. exists None, 0, 2, [28; 16]. repeat split; vm_compute; congruence. Qed.
Lemma ex_saio_like : saio_like (snd ex_saio).
Proof. exists 1, (Some (1667591779 * 2 ^ 32)), 1, (be 8 200). repeat split; vm_compute; congruence. Qed.
Ltac ex_other := apply Forall_forall; intros b Hb; repeat (destruct Hb as [<-|Hb]; [split; [vm_compute; split; congruence|]; split; [apply not_known; vm_compute; reflexivity|vm_compute; reflexivity]|]); destruct Hb.
Ltac ex_fields := split; [vm_compute; repeat split; congruence|]; split; [vm_compute; repeat split; congruence|]; split; [vm_compute; repeat split; congruence|]; split; [vm_compute; repeat split; congruence|]; split; [vm_compute; repeat split; congruence|].
Lemma ex_video_ok : sealed_ok ex_key ex_video [lock_a; lock_b].
Proof.
  split; [ex_other|]. split; [ex_other|]. split.
  - ex_fields. split; [left; split; [reflexivity|split; [cbn; lia|reflexivity]]|]. split; [cbn; lia|]. split; [exact Logic.I|]. split; [cbn; lia|]. split; [reflexivity|]. split; [vm_compute; reflexivity|]. split; [reflexivity|].
    repeat (apply Forall_cons; [vm_compute; repeat split; congruence|]). apply Forall_nil.
  - exists true, [ex_saiz; ex_saio], []. split; [reflexivity|]. split; [|split; [apply Forall_nil|split; [|split; [vm_compute; reflexivity|]]]].
    + apply Forall_cons; [|apply Forall_cons; [|apply Forall_nil]]; (split; [vm_compute; split; congruence|]; split; [vm_compute; reflexivity|]).
      * right. left. split; [reflexivity|exact ex_saiz_like].
      * right. right. split; [reflexivity|exact ex_saio_like].
    + apply Forall_cons; [|apply Forall_cons; [|apply Forall_nil]]; (split; [vm_compute; split; congruence|]; split; [cbn; repeat split; (left; reflexivity) || (right; reflexivity)|]; split; [vm_compute; reflexivity|]; split; [discriminate|]; split; [vm_compute; reflexivity|]; repeat (apply Forall_cons; [vm_compute; split; reflexivity|]); apply Forall_nil).
    + apply Forall2_cons; [ex_sealed|apply Forall2_cons; [ex_sealed|apply Forall2_nil]].
Qed.
Lemma ex_audio_ok : sealed_ok ex_key ex_audio [lock_c].
Proof.
  split; [ex_other|]. split; [ex_other|]. split.
  - ex_fields. split; [right; split; [reflexivity|split; [cbn; lia|reflexivity]]|]. split; [cbn; lia|]. split; [exact Logic.I|]. split; [cbn; lia|]. split; [reflexivity|]. split; [vm_compute; reflexivity|]. split; [reflexivity|].
    repeat (apply Forall_cons; [vm_compute; repeat split; congruence|]). apply Forall_nil.
  - exists false, [], [ex_pssh]. split; [reflexivity|]. split; [apply Forall_nil|]. split; [|split; [|split; [vm_compute; reflexivity|]]].
    + apply Forall_cons; [|apply Forall_nil]. split; [vm_compute; split; congruence|]. split; [vm_compute; reflexivity|]. left. apply not_known. vm_compute. reflexivity.
    + apply Forall_cons; [|apply Forall_nil]. split; [vm_compute; split; congruence|]. split; [cbn; repeat split; (left; reflexivity) || (right; reflexivity)|]. split; [vm_compute; reflexivity|]. eexists. reflexivity.
    + apply Forall2_cons; [ex_sealed|apply Forall2_nil].
Qed.
Definition ex_file : list Z := part ex_video 0 ++ part ex_audio (zlen (part ex_video 0)) ++ other_boxes [(1835430497, [0;0;0;0])].
Example C93_read_nonvacuous : foreign_file 0 [ex_video; ex_audio] ex_file /\ Forall2 (sealed_ok ex_key) [ex_video; ex_audio] [[lock_a; lock_b]; [lock_c]] /\ zlen ex_file < 2 ^ 60
  /\ read_file (Some ex_key) ex_file = Some [[mkS ([0;0;0;5;101] ++ zseq 1 32 ++ [7;7;200;201;202;9]) 6900 900 3000; mkS [1;2;3] 3900 3900 3000]; [mkS (zseq 50 21) 6900 6900 1024]]
  /\ read_file None ex_file <> read_file (Some ex_key) ex_file.
Proof.
  split; [|split; [|split; [|split]]].
  - apply foreign_next; [apply part_ok|]. apply foreign_next; [apply part_ok|]. apply foreign_end. ex_other.
  - apply Forall2_cons; [exact ex_video_ok|]. apply Forall2_cons; [exact ex_audio_ok|]. apply Forall2_nil.
  - vm_compute. reflexivity.
  - vm_compute. reflexivity.
  - vm_compute. discriminate.
Qed.
(** Finding.  The standard also allows vectors of 16 bytes; the reader always takes 8, and reads on
    in the middle of the senc box: here the sample is lost, here it is decrypted to other bytes. *)
Definition long_vector (x : foreign) (vector plain : list Z) : Prop :=
  length vector = 16%nat /\ exists n, o_after x = [(SENC, be 4 0 ++ be 4 1 ++ vector)] /\ map x_body (o_samples x) = [xor_bytes plain (ex_key vector ++ n)] /\ n = ex_key (firstn 15 vector ++ [1]).
Definition ex_long (vector : list Z) : foreign := mkFo [] 2 2 (mkH false None None None None 2) 1 6900 [] (mkU 1 true None true true false false 0)
  [(SENC, be 4 0 ++ be 4 1 ++ vector)] [mkX (xor_bytes (zseq 50 21) (ex_key vector ++ ex_key (firstn 15 vector ++ [1]))) 1024 0 0].
Theorem C93_long_vectors_refuted : exists x y v w, long_vector x v (zseq 50 21) /\ long_vector y w (zseq 50 21) /\ fields_ok x /\ fields_ok y
  /\ read_file (Some ex_key) (part x 0) = Some [] /\ exists b, read_file (Some ex_key) (part y 0) = Some [[mkS b 6900 6900 1024]] /\ b <> zseq 50 21.
Proof.
  exists (ex_long [1;2;3;4;5;6;7;8;0;0;4;0;0;0;0;0]), (ex_long [1;2;3;4;5;6;7;8;0;0;0;8;0;0;0;0]). exists [1;2;3;4;5;6;7;8;0;0;4;0;0;0;0;0], [1;2;3;4;5;6;7;8;0;0;0;8;0;0;0;0].
  split; [split; [reflexivity|exists (ex_key (firstn 15 [1;2;3;4;5;6;7;8;0;0;4;0;0;0;0;0] ++ [1])); repeat split; vm_compute; reflexivity]|].
  split; [split; [reflexivity|exists (ex_key (firstn 15 [1;2;3;4;5;6;7;8;0;0;0;8;0;0;0;0] ++ [1])); repeat split; vm_compute; reflexivity]|].
  split; [ex_fields; split; [right; split; [reflexivity|split; [cbn; lia|reflexivity]]|]; split; [cbn; lia|]; split; [exact Logic.I|]; split; [cbn; lia|]; split; [reflexivity|]; split; [vm_compute; reflexivity|]; split; [vm_compute; reflexivity|]; repeat (apply Forall_cons; [vm_compute; repeat split; congruence|]); apply Forall_nil|].
  split; [ex_fields; split; [right; split; [reflexivity|split; [cbn; lia|reflexivity]]|]; split; [cbn; lia|]; split; [exact Logic.I|]; split; [cbn; lia|]; split; [reflexivity|]; split; [vm_compute; reflexivity|]; split; [vm_compute; reflexivity|]; repeat (apply Forall_cons; [vm_compute; repeat split; congruence|]); apply Forall_nil|].
  split; [vm_compute; reflexivity|]. eexists. split; [vm_compute; reflexivity|]. vm_compute. discriminate.
Qed.
Print Assumptions C93_long_vectors_refuted.
