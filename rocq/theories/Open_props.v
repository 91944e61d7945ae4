(** C68: opening a file ends. *)
From Verif Require Import Util SampleTab_model Box_model Frag_model Movie_model Open_model Open_proofs.
Local Open Scope Z_scope.

(** Whatever the bytes of the file are: opening it ends, within a number of steps known from its
    length, unless the reader meets an mdat or free box that says it has no length, or a track, media
    information or sample entry that says it goes on after the end of the file. *)
Theorem C68_ends : forall f, bytes f -> (forall n s, looks_at f n = Some s -> honest f s) ->
  looks_at f (Z.to_nat ((zlen f + 1) * 2 ^ 40)) = None.
Proof. exact opening_ends. Qed.
(** The other way round: who never comes to an end is looking at such a box. *)
Theorem C68_forever : forall f, bytes f -> (forall n, looks_at f n <> None) -> ~ (forall n s, looks_at f n = Some s -> honest f s).
Proof. intros f B H K. exact (H _ (opening_ends f B K)). Qed.

(** a file with one H.264 track, boxes no reader knows, free space and media data *)
Definition ex_file : list Z := concat (map layout
  [ Leaf FTYP (be32 1769172845 ++ be32 512);
    Node MOOV
      [ Leaf MVHD (mvhd_body 0 1000 5000 2);
        Leaf IODS [1; 2; 3; 4; 5; 6; 7];
        Node TRAK
          [ Leaf TKHD (tkhd_body 0 1 5000 0 640 480);
            Node EDTS [Leaf ELST (full 0 0 ++ be32 1 ++ be32 5000 ++ be32 0 ++ be32 65536)];
            Node MDIA
              [ Leaf MDHD (mdhd_body 0 90000 450000 (101, 110, 103));
                Leaf HDLR (hdlr_body VIDE);
                Node MINF
                  [ Leaf VMHD vmhd_body;
                    Node DINF [Leaf DREF (full 0 0 ++ be32 1 ++ layout (Leaf URL (full 0 1)))];
                    Node STBL
                      [ Leaf STSD (full 0 0 ++ be32 1 ++ layout (Leaf AVC1 (visual_entry 640 480 (repeat 0 31) ++ layout (Leaf AVCC [1; 66; 0; 30; 255; 224; 0]))));
                        Leaf box_stsz (full 0 0 ++ be32 100 ++ be32 50) ] ] ] ] ];
    Leaf FREE [0; 0; 0]; Leaf MDAT [1; 2; 3; 4; 5; 6; 7; 8; 9] ]).
Example C68_nonvacuous :
  bytes ex_file /\ (forall n s, looks_at ex_file n = Some s -> honest ex_file s) /\
  (exists s, looks_at ex_file 22 = Some s /\ r_type (q_box s) = MDAT) /\ looks_at ex_file 23 = None.
Proof.
  assert (B : forall l, forallb is_byteb l = true -> bytes l).
  { intros l H. apply Forall_forall. intros x Hx. rewrite forallb_forall in H. specialize (H x Hx). unfold is_byteb in H. unfold is_byte. lia. }
  split; [apply B; vm_compute; reflexivity|]. clear B.
  split.
  { intros n s H. unfold looks_at in H. destruct (start ex_file) as [s0|] eqn:E; [|discriminate]. apply (all_honest_ok ex_file 40 s0) with (n := n); [|exact H].
    assert (Q : match start ex_file with Some s => all_honest ex_file 40 s | None => false end = true) by (vm_compute; reflexivity). rewrite E in Q. exact Q. }
  split; [|vm_compute; reflexivity]. destruct (looks_at ex_file 22) as [s|] eqn:E.
  - exists s. split; [reflexivity|]. assert (Q : match looks_at ex_file 22 with Some s => r_type (q_box s) | None => 0 end = MDAT) by (vm_compute; reflexivity). rewrite E in Q. exact Q.
  - assert (Q : match looks_at ex_file 22 with Some s => true | None => false end = true) by (vm_compute; reflexivity). rewrite E in Q. discriminate.
Qed.

(** Media data of size 0, which ISO/IEC 14496-12 (4.2) allows for the last box of a file: the reader
    never ends. *)
Definition ex_zero : list Z := layout (Leaf FTYP (be32 1769172845 ++ be32 512)) ++ be32 0 ++ be32 MDAT ++ [1; 2; 3; 4; 5; 6; 7; 8; 9].
Theorem C68_size_zero_refuted : forall n, looks_at ex_zero n <> None.
Proof.
  intros n. destruct n as [|n]; [vm_compute; discriminate|].
  destruct (looks_at ex_zero 1) as [s|] eqn:E; [|vm_compute in E; discriminate]. rewrite (forever ex_zero 1 s E); [discriminate| |lia].
  vm_compute in E. injection E as <-. vm_compute. reflexivity.
Qed.
(** A file of proper boxes of which the last bytes are missing, as after a broken transfer: the
    reader never ends. *)
Definition ex_cut : list Z := firstn 52 (concat (map layout [ Leaf FTYP (be32 1769172845 ++ be32 512); Node MOOV [Node TRAK [Leaf IODS [1; 2; 3; 4; 5; 6; 7; 8; 9; 10; 11; 12; 13; 14; 15; 16]]]])).
Theorem C68_cut_refuted : forall n, looks_at ex_cut n <> None.
Proof.
  intros n. destruct (le_lt_dec 5 n) as [L|L].
  - destruct (looks_at ex_cut 5) as [s|] eqn:E; [|vm_compute in E; discriminate]. rewrite (forever ex_cut 5 s E); [discriminate| |exact L].
    vm_compute in E. injection E as <-. vm_compute. reflexivity.
  - destruct n as [|[|[|[|[|n]]]]]; [vm_compute; discriminate..|lia].
Qed.

Print Assumptions C68_ends.
Print Assumptions C68_forever.
Print Assumptions C68_nonvacuous.
Print Assumptions C68_size_zero_refuted.
Print Assumptions C68_cut_refuted.
