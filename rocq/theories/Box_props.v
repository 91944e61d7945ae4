(** Property C39: mp4 boxes are written with their sizes, and read back. *)
From Verif Require Import Util SampleTab_model Box_model Box_proofs.
Local Open Scope Z_scope.

(** Any nesting of boxes, each below 2^32 bytes, written with open_box, close_box, write_child_box
    and write_bytes at the end of a file: the file gets each box as its size, its type and what it
    holds, nothing else changes, and the writer is again at the end. *)
Theorem C39_written : forall l w, at_end w -> Forall fits l -> exists w', write_all l w = Some w' /\ w_file w' = w_file w ++ concat (map layout l) /\ at_end w' /\ w_parents w' = w_parents w.
Proof. exact written. Qed.
Print Assumptions C39_written.
(** moof(mfhd, traf(tfhd, trun)) and mdat *)
Definition ex_boxes : list item := [Node 1836019558 [Leaf 1835427940 [0; 0; 0; 0; 0; 0; 0; 7]; Node 1953653094 [Leaf 1952868452 [0; 0; 0; 0; 0; 0; 0; 1]; Leaf 1953658222 []]]; Leaf 1835295092 [1; 2; 3]].
Example C39_written_nonvacuous : Forall fits ex_boxes /\ at_end (mkW [9; 9] 2 [])
  /\ concat (map layout ex_boxes) = [0; 0; 0; 56; 109; 111; 111; 102; 0; 0; 0; 16; 109; 102; 104; 100; 0; 0; 0; 0; 0; 0; 0; 7; 0; 0; 0; 32; 116; 114; 97; 102; 0; 0; 0; 16; 116; 102; 104; 100; 0; 0; 0; 0; 0; 0; 0; 1; 0; 0; 0; 8; 116; 114; 117; 110; 0; 0; 0; 11; 109; 100; 97; 116; 1; 2; 3].
Proof. split; [repeat (apply Forall_cons; [vm_compute; intuition congruence|]); apply Forall_nil|]. split; reflexivity. Qed.
(** What is written is boxes following each other (ISO/IEC 14496-12), in one way only. *)
Theorem C39_boxes : forall l bl, Forall2 (fun i b => match i with Raw _ => False | Leaf t body => b = (t, body) | Node t kids => b = (t, concat (map layout kids)) end) l bl ->
  Forall fits l -> Forall (fun b => 0 <= fst b < 2 ^ 32) bl -> boxes (concat (map layout l)) bl /\ forall bl', boxes (concat (map layout l)) bl' -> bl' = bl.
Proof.
  intros l bl H F T. assert (B : boxes (concat (map layout l)) bl).
  { apply boxes_back. induction H as [|i b l bl H1 H IH]; [constructor|]. constructor; [|apply IH; [exact (Forall_inv_tail F)|exact (Forall_inv_tail T)]]. split; [|split; [exact (Forall_inv F)|exact (Forall_inv T)]]. destruct i; [destruct H1|subst b; reflexivity|subst b; reflexivity]. }
  split; [exact B|]. intros bl' B'. exact (boxes_unique _ _ B' _ B).
Qed.
Print Assumptions C39_boxes.
(** Reading a box where one starts gives its type and its place, and skipping it leads to where it
    ends; also for boxes of an extended type. *)
Theorem C39_read : forall pre t body post, 0 <= t < 2 ^ 32 -> t <> uuid -> 8 + zlen body < 2 ^ 32 -> let f := pre ++ layout (Leaf t body) ++ post in
  exists b, do_box f (zlen pre) = Some b /\ r_type b = t /\ r_pos b = zlen pre + 8 /\ skip_current b = zlen pre + zlen (layout (Leaf t body)) /\ box_end b = zlen pre + zlen (layout (Leaf t body)).
Proof. exact read_plain. Qed.
Print Assumptions C39_read.
Example C39_read_nonvacuous : do_box ([7; 7; 7] ++ layout (Leaf 1835295092 [1; 2; 3; 4]) ++ [5]) 3 = Some (mkR 11 3 12 1835295092) /\ skip_current (mkR 11 3 12 1835295092) = 15. Proof. split; vm_compute; reflexivity. Qed.
(** Refuted for the end reported for a box of an extended type: 16 bytes before its end. *)
Theorem C39_uuid_end_refuted : forall pre g body post, length g = 16%nat -> 24 + zlen body < 2 ^ 32 -> let f := pre ++ layout (Leaf uuid (g ++ body)) ++ post in
  exists b, do_box f (zlen pre) = Some b /\ r_type b = uuid /\ r_pos b = zlen pre + 24 /\ skip_current b = zlen pre + zlen (layout (Leaf uuid (g ++ body))) /\ box_end b = zlen pre + zlen (layout (Leaf uuid (g ++ body))) - 16.
Proof. exact read_uuid. Qed.
Print Assumptions C39_uuid_end_refuted.
(** Refuted for boxes with a size of 64 bits: skipping one leads 8 bytes into the next. *)
Theorem C39_large_read_refuted : forall pre t body post, 0 <= t < 2 ^ 32 -> t <> uuid -> 16 + zlen body < 2 ^ 61 -> let box := be32 1 ++ be32 t ++ be 8 (16 + zlen body) ++ body in
  exists b, do_box (pre ++ box ++ post) (zlen pre) = Some b /\ r_type b = t /\ r_pos b = zlen pre + 16 /\ box_end b = zlen pre + zlen box /\ skip_current b = zlen pre + zlen box + 8.
Proof. exact read_large. Qed.
Print Assumptions C39_large_read_refuted.
Example C39_large_nonvacuous : do_box ([3] ++ (be32 1 ++ be32 1835295092 ++ be 8 18 ++ [1; 2]) ++ [0; 0; 0; 8; 0; 0; 0; 0]) 1 = Some (mkR 17 1 18 1835295092). Proof. vm_compute. reflexivity. Qed.
(** Refuted for boxes of 2^32 bytes or more: the size written is what is left modulo 2^32. *)
Theorem C39_large_written_refuted : forall t body w, at_end w -> 0 <= t < 2 ^ 32 -> 2 ^ 32 <= 8 + zlen body -> exists size, w_file (child_box t body w) = w_file w ++ be32 size ++ be32 t ++ body /\ 0 <= size < 8 + zlen body.
Proof.
  intros t body w H Ht Hs. rewrite (at_end_fin _ H). exists (u32 (8 + zlen body)). rewrite child_fin. split; [reflexivity|]. unfold u32. pose proof (Z.mod_pos_bound (8 + zlen body) (2 ^ 32) ltac:(lia)). lia.
Qed.
Print Assumptions C39_large_written_refuted.
Example C39_large_written_nonvacuous : exists body : list Z, 2 ^ 32 <= 8 + zlen body. Proof. assert (G : forall n, 0 <= n -> exists body : list Z, n <= 8 + zlen body). { intros n Hn. exists (repeat 0 (Z.to_nat n)). unfold zlen. rewrite repeat_length. lia. } apply G. lia. Qed.
