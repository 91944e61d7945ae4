(** Property C92: fragments of other programs are read as the standard says. *)
From Verif Require Import Util SampleTab_model Box_model HlsCrypt_model Cenc_model Frag_model Defrag_model Foreign_model Foreign_proofs.
Local Open Scope Z_scope.

(** A file of any number of clear fragments, each with any choice of the optional fields of the
    tfhd and trun, either version of tfdt and trun, data offset or none, and other boxes between
    them, before them and inside them: every fragment gives its samples, with the bodies, sizes,
    durations and composition offsets the fields or the defaults of the tfhd give, decoding times
    counted from the one in the tfdt. *)
Theorem C92_read : forall l f, foreign_file 0 l f -> Forall foreign_ok l -> zlen f < 2 ^ 60 -> read_file None f = Some (map (fun x => timed (o_base x) (o_samples x)) l).
Proof. exact foreign_read_file. Qed.
Print Assumptions C92_read.
(** the four letters of the boxes: styp, sidx, moof, mfhd, traf, tfhd, tfdt, trun, saiz, saio, senc, mdat *)
Theorem C92_letters : map (be 4) [STYP; SIDX; MOOF; MFHD; TRAF; TFHD; TFDT; TRUN; SAIZ; SAIO; SENC; MDAT] =
  [[115;116;121;112]; [115;105;100;120]; [109;111;111;102]; [109;102;104;100]; [116;114;97;102]; [116;102;104;100]; [116;102;100;116]; [116;114;117;110]; [115;97;105;122]; [115;97;105;111]; [115;101;110;99]; [109;100;97;116]].
Proof. vm_compute. reflexivity. Qed.
Print Assumptions C92_letters.

(** ftyp and moov; a fragment with defaults, 32-bit time and no data offset; one with everything *)
Definition ex_ftyp : Z * list Z := (1718909296, [105;115;111;109;0;0;0;0]).
Definition ex_moov : Z * list Z := (1836019574, [0;0;0;16;109;118;104;100;1;2;3;4;5;6;7;8]).
Definition ex_first : foreign := mkFo [ex_ftyp; ex_moov] 1 1 (mkH false None (Some 3000) (Some 2) (Some 16842752) 2) 0 900 [] (mkU 0 false (Some 33554432) false false false true 0) []
  [mkX [1; 2] 3000 0 6000; mkX [3; 4] 3000 0 0].
Definition ex_second : foreign := mkFo [(1936225648, [1; 2; 3])] 2 1 (mkH true (Some 1) (Some 7) (Some 9) None 0) 1 6900 [(1935832172, [0]); (1935763568, [])] (mkU 1 true None true true true true 0) [(1936158820, [0; 1]); (1936025959, [])]
  [mkX [5; 6; 7] 3000 1 (-1500); mkX [] 1500 2 0; mkX [8] 1500 3 1500].
Definition ex_mfra : Z * list Z := (1835430497, [0;0;0;0]).
Definition part (x : foreign) (start : Z) : list Z :=
  let b := other_boxes (o_before x) in b ++ moof_of x (start + zlen b) (zlen (moof_of x 0 0) + 8) ++ a_box [109; 100; 97; 116] (concat (map x_body (o_samples x))).
Lemma part_ok : forall x start, laid_out x start (part x start).
Proof. intros. eexists. split; [|reflexivity]. f_equal. f_equal. apply moof_zlen. Qed.
Lemma not_known : forall t, forallb (fun k => negb (t =? k)) known = true -> ~ In t known.
Proof. intros t H K. rewrite forallb_forall in H. specialize (H t K). rewrite Z.eqb_refl in H. discriminate. Qed.
Ltac ex_other := apply Forall_forall; intros b Hb; repeat (destruct Hb as [<-|Hb]; [split; [vm_compute; split; congruence|]; split; [apply not_known; vm_compute; reflexivity|vm_compute; reflexivity]|]); destruct Hb.
Ltac ex_foreign := split; [ex_other|]; split; [ex_other|]; split; [ex_other|]; split; [vm_compute; repeat split; congruence|]; split; [vm_compute; repeat split; congruence|]; split; [vm_compute; repeat split; congruence|]; split; [vm_compute; repeat split; congruence|]; split; [vm_compute; repeat split; congruence|].
Lemma ex_first_ok : foreign_ok ex_first.
Proof.
  ex_foreign. split; [left; split; [reflexivity|split; [cbn; lia|reflexivity]]|]. split; [cbn; lia|]. split; [vm_compute; split; congruence|]. split; [cbn; lia|]. split; [reflexivity|]. split; [vm_compute; reflexivity|]. split; [reflexivity|].
  repeat (apply Forall_cons; [vm_compute; repeat split; congruence|]). apply Forall_nil.
Qed.
Lemma ex_second_ok : foreign_ok ex_second.
Proof.
  ex_foreign. split; [right; split; [reflexivity|split; [cbn; lia|reflexivity]]|]. split; [cbn; lia|]. split; [vm_compute; exact Logic.I|]. split; [cbn; lia|]. split; [reflexivity|]. split; [vm_compute; reflexivity|]. split; [reflexivity|].
  repeat (apply Forall_cons; [vm_compute; repeat split; congruence|]). apply Forall_nil.
Qed.
Example C92_read_nonvacuous : exists f, foreign_file 0 [ex_first; ex_second] f /\ Forall foreign_ok [ex_first; ex_second] /\ zlen f = 382
  /\ read_file None f = Some [[mkS [1; 2] 6900 900 3000; mkS [3; 4] 3900 3900 3000]; [mkS [5; 6; 7] 5400 6900 3000; mkS [] 9900 9900 1500; mkS [8] 12900 11400 1500]].
Proof.
  exists (part ex_first 0 ++ part ex_second (zlen (part ex_first 0)) ++ other_boxes [ex_mfra]). split; [|split; [|split]].
  - apply foreign_next; [apply part_ok|]. apply foreign_next; [apply part_ok|]. apply foreign_end. ex_other.
  - apply Forall_cons; [exact ex_first_ok|]. apply Forall_cons; [exact ex_second_ok|]. apply Forall_nil.
  - vm_compute. reflexivity.
  - vm_compute. reflexivity.
Qed.
(** Findings.  The base_data_offset of the tfhd is skipped: with data offsets counted from the
    start of the file, as it says, other bytes are read. *)
Theorem C92_base_refuted : exists x moof, foreign_ok x /\ h_base (o_head x) = true /\ zlen (other_boxes (o_before x)) = 40 /\ moof = moof_of x 0 (40 + zlen moof + 8)
  /\ map s_body (timed (o_base x) (o_samples x)) = [[1; 2]; [3; 4]]
  /\ read_file None (other_boxes (o_before x) ++ moof ++ a_box [109; 100; 97; 116] [1; 2; 3; 4] ++ other_boxes [(1718773093, repeat 0 40)]) = Some [[mkS [0; 0] 6900 900 3000; mkS [0; 0] 3900 3900 3000]].
Proof.
  set (x := mkFo [ex_ftyp; ex_moov] 1 1 (mkH true None (Some 3000) (Some 2) (Some 16842752) 0) 0 900 [] (mkU 0 true (Some 33554432) false false false true 0) [] [mkX [1; 2] 3000 0 6000; mkX [3; 4] 3000 0 0]).
  exists x, (moof_of x 0 (40 + zlen (moof_of x 0 0) + 8)). split; [|split; [reflexivity|split; [vm_compute; reflexivity|split; [vm_compute; reflexivity|split; [reflexivity|vm_compute; reflexivity]]]]].
  unfold x. ex_foreign. split; [left; split; [reflexivity|split; [cbn; lia|reflexivity]]|]. split; [cbn; lia|]. split; [vm_compute; split; congruence|]. split; [cbn; lia|]. split; [reflexivity|]. split; [vm_compute; reflexivity|]. split; [reflexivity|].
  repeat (apply Forall_cons; [vm_compute; repeat split; congruence|]). apply Forall_nil.
Qed.
Print Assumptions C92_base_refuted.
(** Of two runs in a fragment only the last is read. *)
Theorem C92_two_runs_refuted : exists x y moof, o_inside x = [(TRUN, skipn 8 (trun_of y (zlen moof + 8)))] /\ o_samples y = [mkX [65] 10 0 0] /\ o_samples x = [mkX [66] 10 0 0] /\ o_base x = 100 /\ moof = moof_of x 0 (zlen moof + 9)
  /\ read_file None (moof ++ a_box [109; 100; 97; 116] [65; 66]) = Some [[mkS [66] 100 100 10]].
Proof.
  set (y := mkFo [] 1 1 (mkH false None None None None 2) 0 100 [] (mkU 0 true None true true false false 0) [] [mkX [65] 10 0 0]).
  set (x n := mkFo [] 1 1 (mkH false None None None None 2) 0 100 [(TRUN, skipn 8 (trun_of y (n + 8)))] (mkU 0 true None true true false false 0) [] [mkX [66] 10 0 0]).
  exists (x (zlen (moof_of (x 0) 0 0))), y, (moof_of (x (zlen (moof_of (x 0) 0 0))) 0 (zlen (moof_of (x 0) 0 0) + 9)). split; [vm_compute; reflexivity|]. split; [reflexivity|]. split; [reflexivity|]. split; [reflexivity|]. split; [vm_compute; reflexivity|]. vm_compute. reflexivity.
Qed.
Print Assumptions C92_two_runs_refuted.
(** Defaults of the movie (trex) are not used: samples without a duration in the fragment all
    start at the same time, or last as long as the fragment before said. *)
Theorem C92_trex_refuted : exists x y f f1 f2, u_dur (o_run x) = false /\ h_dur (o_head x) = None /\ h_dur (o_head y) = Some 7 /\ laid_out x 0 f /\ laid_out y 0 f1 /\ laid_out x (zlen f1) f2
  /\ read_file None f = Some [[mkS [1] 100 100 0; mkS [2] 100 100 0]] /\ read_file None (f1 ++ f2) = Some [[mkS [9] 50 50 7]; [mkS [1] 100 100 7; mkS [2] 107 107 7]].
Proof.
  set (x := mkFo [] 1 1 (mkH false None None (Some 1) None 2) 0 100 [] (mkU 0 true None false false false false 0) [] [mkX [1] 20 0 0; mkX [2] 20 0 0]).
  set (y := mkFo [] 1 1 (mkH false None (Some 7) (Some 1) None 2) 0 50 [] (mkU 0 true None false false false false 0) [] [mkX [9] 7 0 0]).
  exists x, y, (part x 0), (part y 0), (part x (zlen (part y 0))). split; [reflexivity|]. split; [reflexivity|]. split; [reflexivity|]. split; [apply part_ok|]. split; [apply part_ok|]. split; [apply part_ok|]. split; [vm_compute; reflexivity|]. vm_compute. reflexivity.
Qed.
Print Assumptions C92_trex_refuted.
