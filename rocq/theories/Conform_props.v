(** Property C94: the fragments mg writes are laid out as the standard says. *)
From Verif Require Import Util SampleTab_model Box_model HlsCrypt_model Cenc_model Frag_model Cenc_proofs Defrag_model Foreign_model Sealed_model Conform_model Conform_proofs Conform_proofs2 Conform_proofs3.
Local Open Scope Z_scope.

(** Any clear fragment, written anywhere in a file: what is added are two boxes (styp and sidx) and
    then byte for byte the moof and the mdat that ISO/IEC 14496-12 lays down for these samples, as
    Foreign_model says it, with every value in its field: a reader that knows only the standard gets
    for every sample its body, its duration and its composition offset (negative ones too), and the
    decoding time of the first. *)
Theorem C94_clear : forall scale st base l f, fragment_ok scale None (st, base, l) -> first_flags st < 2 ^ 32 ->
  exists w x added, end_fragment scale st base l (mkW f (zlen f) []) = Some w /\ w_file w = f ++ added
  /\ laid_out x (zlen f) added /\ foreign_ok x /\ says scale st base l x
  /\ map fst (o_before x) = [STYP; SIDX] /\ o_inside x = [] /\ o_after x = [].
Proof. exact written_conforms. Qed.
Print Assumptions C94_clear.

(** Any encrypted fragment: the same, with the boxes saiz, saio and senc after the run as ISO/IEC
    23001-7 lays them down, the vectors counted up from the first one; with the key the bodies
    are those given. *)
Theorem C94_encrypted : forall scale E sub iv st base l f, fragment_ok scale (Some E) (st, base, l) -> crypt st = Some (E, sub, iv) -> first_flags st < 2 ^ 32 ->
  exists w x added locks, end_fragment scale st base l (mkW f (zlen f) []) = Some w /\ w_file w = f ++ added
  /\ laid_out x (zlen f) added /\ sealed_ok E x locks /\ says_sealed scale st base l x locks /\ consecutive (be_val 0 iv) locks
  /\ map fst (o_before x) = [STYP; SIDX] /\ o_inside x = [] /\ map fst (o_after x) = [SAIZ; SAIO; SENC].
Proof. intros scale. exact (sealed_conforms scale). Qed.
Print Assumptions C94_encrypted.

(** Any number of fragments one after the other are a file of the standard, as C92_read and C93_read
    take them from other programs, the data offsets and positions right for where they stand. *)
Theorem C94_file_clear : forall scale frs f, Forall (fragment_ok scale None) frs -> Forall (fun fr => first_flags (fst (fst fr)) < 2 ^ 32) frs ->
  exists w xs added, write_fragments scale frs (mkW f (zlen f) []) = Some w /\ w_file w = f ++ added
  /\ foreign_file (zlen f) xs added /\ Forall foreign_ok xs /\ Forall2 (fun '(st, base, l) x => says scale st base l x) frs xs.
Proof. exact file_clear. Qed.
Print Assumptions C94_file_clear.
Theorem C94_file_encrypted : forall scale E frs f, Forall (fragment_ok scale (Some E)) frs -> Forall (fun fr => first_flags (fst (fst fr)) < 2 ^ 32) frs ->
  exists w xs locks added, write_fragments scale frs (mkW f (zlen f) []) = Some w /\ w_file w = f ++ added
  /\ foreign_file (zlen f) xs added /\ Forall2 (sealed_ok E) xs locks /\ Forall2 (fun '(st, base, l) xk => says_sealed scale st base l (fst xk) (snd xk)) frs (combine xs locks).
Proof. exact file_sealed. Qed.
Print Assumptions C94_file_encrypted.

(** video with a B frame, audio: real bytes *)
Definition ex_st (flags : Z) : setting := mkSet 2 7 flags 10000000 None 99 98.
Definition ex_samples : list sample := [mkS [1; 2; 3] 4295767296 4294967296 400000; mkS [4] 4296967296 4295367296 400000; mkS [] 4295367296 4295767296 400001].
Example C94_clear_nonvacuous : fragment_ok (fun _ t => t) None (ex_st 37748736, 4294967296, ex_samples) /\ fragment_ok (fun _ t => t) None (ex_st 0, 5, firstn 1 ex_samples)
  /\ exists w x, end_fragment (fun _ t => t) (ex_st 37748736) 4294967296 ex_samples (mkW [8; 8] 2 []) = Some w /\ zlen (w_file w) = 222 /\ says (fun _ t => t) (ex_st 37748736) 4294967296 ex_samples x
     /\ o_samples x = [mkX [1; 2; 3] 400000 0 800000; mkX [4] 400000 0 1600000; mkX [] 400001 0 (-400000)]
     /\ firstn 24 (skipn 186 (w_file w)) = be 4 400000 ++ be 4 1 ++ be 4 1600000 ++ be 4 400001 ++ be 4 0 ++ be 4 (2 ^ 32 - 400000).
Proof.
  split; [split; [exact Logic.I|]; split; [lia|]; split; [discriminate|]; split; [vm_compute; reflexivity|]; repeat (apply Forall_cons; [vm_compute; repeat split; congruence|]); apply Forall_nil|].
  split; [split; [exact Logic.I|]; split; [lia|]; split; [discriminate|]; split; [vm_compute; reflexivity|]; repeat (apply Forall_cons; [vm_compute; repeat split; congruence|]); apply Forall_nil|].
  eexists. exists (said (fun _ t => t) (ex_st 37748736) 4294967296 ex_samples). split; [vm_compute; reflexivity|]. split; [vm_compute; reflexivity|]. split; [apply said_says|]. split; [vm_compute; reflexivity|]. vm_compute. reflexivity.
Qed.
(** encrypted: a long sample in two parts and a short one left clear; the last vector, then the first *)
Definition ex_key (b : list Z) : list Z := map (fun x => (7 * x + 3) mod 256) (firstn 16 (b ++ repeat 0 16)).
Definition ex_hidden (sub : bool) : setting := mkSet 1 7 37748736 10000000 (Some (ex_key, sub, repeat 255 8)) 99 98.
Definition ex_long : list sample := [mkS (zseq 0 150) 100 100 10; mkS [4; 5] 130 110 10].
Example C94_encrypted_nonvacuous : (forall sub, fragment_ok (fun _ t => t) (Some ex_key) (ex_hidden sub, 100, ex_long) /\ crypt (ex_hidden sub) = Some (ex_key, sub, repeat 255 8))
  /\ exists w, end_fragment (fun _ t => t) (ex_hidden true) 100 ex_long (mkW [] 0 []) = Some w /\ zlen (w_file w) = 441
     /\ consecutive (be_val 0 (repeat 255 8)) [mkL (2 ^ 64 - 1) [(zseq 0 102, zseq 102 48)]; mkL 0 [([4; 5], [])]]
     /\ firstn 40 (skipn 241 (w_file w)) = senc_content true [mkL (2 ^ 64 - 1) [(zseq 0 102, zseq 102 48)]; mkL 0 [([4; 5], [])]]
     /\ firstn 102 (skipn 289 (w_file w)) = zseq 0 102 /\ firstn 5 (skipn 391 (w_file w)) = [154; 155; 148; 149; 150] /\ skipn 439 (w_file w) = [4; 5].
Proof.
  split.
  - intros sub. split; [|reflexivity]. split; [split; [reflexivity|split; [intros b; unfold ex_key; rewrite map_length, firstn_length, app_length, repeat_length; lia|split; [reflexivity|apply Forall_forall; intros y Hy; apply repeat_spec in Hy; subst y; unfold is_byte; lia]]]|].
    split; [lia|]. split; [discriminate|]. split; [vm_compute; reflexivity|]. repeat (apply Forall_cons; [vm_compute; repeat split; congruence|]). apply Forall_nil.
  - eexists. split; [vm_compute; reflexivity|]. split; [vm_compute; reflexivity|]. split; [vm_compute; repeat split|]. split; [vm_compute; reflexivity|]. split; [vm_compute; reflexivity|]. split; [vm_compute; reflexivity|vm_compute; reflexivity].
Qed.
Example C94_file_nonvacuous : let clear := [(ex_st 37748736, 4294967296, ex_samples); (ex_st 0, 5, firstn 1 ex_samples)] in let hidden := [(ex_hidden true, 100, ex_long); (ex_hidden false, 120, ex_long)] in
  Forall (fragment_ok (fun _ t => t) None) clear /\ Forall (fragment_ok (fun _ t => t) (Some ex_key)) hidden /\ Forall (fun fr => first_flags (fst (fst fr)) < 2 ^ 32) (clear ++ hidden)
  /\ (exists w, write_fragments (fun _ t => t) clear (mkW [1; 2] 2 []) = Some w /\ zlen (w_file w) = 409) /\ exists w, write_fragments (fun _ t => t) hidden (mkW [] 0 []) = Some w /\ zlen (w_file w) = 882.
Proof.
  intros clear hidden. split; [destruct C94_clear_nonvacuous as (H1 & H2 & _); exact (Forall_cons _ H1 (Forall_cons _ H2 (Forall_nil _)))|]. destruct C94_encrypted_nonvacuous as (H & _).
  split; [apply Forall_cons; [exact (proj1 (H true))|apply Forall_cons; [|apply Forall_nil]]; destruct (proj1 (H false)) as (K & B & N & R & T); split; [exact K|]; split; [lia|]; split; [exact N|]; split; [exact R|exact T]|].
  split; [repeat (apply Forall_cons; [vm_compute; reflexivity|]); apply Forall_nil|]. split; (eexists; split; [vm_compute; reflexivity|vm_compute; reflexivity]).
Qed.
