(** Proofs about Init_model: the bytes are those of the standards. *)
From Coq Require Import ZifyNat String.
From Verif Require Import Util Str_model SampleTab_model SampleTab_proofs TimeTab_model Double_model Box_model Box_proofs Frag_model Frag_proofs Frag_proofs2 Movie_model Movie_proofs Movie_proofs2 Movie_proofs3 Init_model Init_proofs.
Local Open Scope Z_scope.
Local Ltac Zify.zify_post_hook ::= Z.div_mod_to_equations.

Opaque be.
Lemma be32_u : forall x, be32 (u32 x) = be 4 x. Proof. intros. unfold be32, u32. change (2 ^ 32) with (256 ^ Z.of_nat 4). apply be_mod. Qed.
Lemma be2_mod : forall x, be 2 (x mod 2 ^ 16) = be 2 x. Proof. intros. change (2 ^ 16) with (256 ^ Z.of_nat 2). apply be_mod. Qed.
Lemma be8_split : forall x, be 8 x = be32 (u32 (x / 2 ^ 32)) ++ be32 (u32 x). Proof. intros. rewrite !be32_u. exact (be_app 4 4 x). Qed.
Lemma be4_high : forall x, be 4 (x * 65536) = be 2 x ++ be 2 0.
Proof. intros x. rewrite (be_app 2 2). change (256 ^ Z.of_nat 2) with 65536. rewrite Z.div_mul by lia. f_equal. rewrite <- (be_mod 2). change (256 ^ Z.of_nat 2) with 65536. rewrite Z_mod_mult. reflexivity. Qed.
Transparent be.
Lemma e_ftyp : init_ftyp = str "isom" ++ be 4 0 ++ str "iso8" ++ str "mp41" ++ str "dash" ++ str "avc1" ++ str "cmfs". Proof. vm_compute. reflexivity. Qed.
Lemma e_unity : matrix = unity. Proof. vm_compute. reflexivity. Qed.
Lemma e_full00 : full 0 0 = be 4 0. Proof. vm_compute. reflexivity. Qed.
Lemma e_full01 : full 0 1 = [0; 0; 0; 1]. Proof. vm_compute. reflexivity. Qed.
Lemma e_hdlr : forall v : bool, hdlr_body (if v then VIDE else SOUN) = be 8 0 ++ str (if v then "vide" else "soun") ++ be 12 0 ++ str "FOUNDATION MEDIA HANDLER" ++ [0]. Proof. intros []; vm_compute; reflexivity. Qed.
Lemma e_zeros : be 24 0 = words [0; 0; 0; 0; 0; 0] /\ be 10 0 = be 2 0 ++ words [0; 0] /\ be 12 0 = words [0; 0; 0] /\ be 8 0 = words [0; 0] /\ full 1 0 = [1; 0; 0; 0] /\ be 16 0 = be 2 0 ++ be 2 0 ++ words [0; 0; 0] /\ be 12 0 = be 4 0 ++ be 4 0 ++ be 2 0 ++ be 2 0. Proof. repeat split; vm_compute; reflexivity. Qed.
Lemma e_mhd : forall c, mhd_of c = if is_video c then Leaf (four "vmhd") (be 12 0) else Leaf (four "smhd") (be 8 0). Proof. intros [? ? ? ?|? ? ?]; vm_compute; reflexivity. Qed.
Lemma e_sinf : forall kid, sinf_item AVC1 kid = sinf_box "avc1" kid /\ sinf_item MP4A kid = sinf_box "mp4a" kid. Proof. intros. split; vm_compute; reflexivity. Qed.
Lemma e_dinf : dinf_item = Node (four "dinf") [Node (four "dref") [Raw (be 4 0 ++ be 4 1); Leaf (four "url ") [0; 0; 0; 1]]]. Proof. vm_compute. reflexivity. Qed.
Lemma e_tables : empty_tables = [Leaf (four "stts") (be 8 0); Leaf (four "stsc") (be 8 0); Leaf (four "stsz") (be 12 0); Leaf (four "stco") (be 8 0)]. Proof. vm_compute. reflexivity. Qed.
Lemma e_lang : be 2 (letter 117 * 1024 + letter 110 * 32 + letter 100) = be 2 ((117 - 96) * 1024 + (110 - 96) * 32 + (100 - 96)). Proof. vm_compute. reflexivity. Qed.
Opaque be str.
Lemma words1 : forall a l, words (a :: l) = be 4 a ++ words l. Proof. reflexivity. Qed.
Lemma e_video : forall w h n, visual_entry w h n = video_fields w h n.
Proof. intros. unfold visual_entry, video_fields. destruct e_zeros as (_ & _ & _ & _ & _ & Hz & _). rewrite Hz, !be2_mod. rewrite <- !app_assoc. rewrite !words1. change (words []) with (@nil Z). rewrite ?app_nil_r, <- ?app_assoc. change (be 1 0) with [0]. reflexivity. Qed.
Lemma e_audio : forall r c, audio_entry r c = audio_fields r c.
Proof. intros. unfold audio_entry, audio_fields. rewrite be32_u, be2_mod. change (2 ^ 16) with 65536. destruct e_zeros as (_ & _ & _ & Hz & _). rewrite Hz. change (be 4 0) with (be 2 0 ++ be 2 0). rewrite <- ?app_assoc. reflexivity. Qed.
Lemma leaf_node : forall t b, layout (Node t [Raw b]) = layout (Leaf t b).
Proof. intros. rewrite layout_node, layout_leaf, all_layout_cons. change (all_layout []) with (@nil Z). rewrite app_nil_r. reflexivity. Qed.
Lemma node_eq : forall t t' k k', t = t' -> all_layout k = all_layout k' -> layout (Node t k) = layout (Node t' k').
Proof. intros t t' k k' -> E. rewrite !layout_node, E. reflexivity. Qed.
Lemma cons_eq : forall a a' l l', layout a = layout a' -> all_layout l = all_layout l' -> all_layout (a :: l) = all_layout (a' :: l').
Proof. intros a a' l l' E1 E2. rewrite !all_layout_cons, E1, E2. reflexivity. Qed.
Lemma leaf_eq : forall t t' b b', t = t' -> b = b' -> layout (Leaf t b) = layout (Leaf t' b'). Proof. intros. subst. reflexivity. Qed.
Ltac typ := vm_compute; reflexivity.
Lemma e_plain : forall c, layout (entry_item c) = layout (plain_entry c).
Proof.
  intros [w h n b|r ch b]; unfold entry_item, plain_entry.
  - apply node_eq; [typ|]. apply cons_eq; [rewrite e_video; reflexivity|]. apply cons_eq; [|reflexivity]. rewrite leaf_node. apply leaf_eq; [typ|reflexivity].
  - apply node_eq; [typ|]. rewrite e_audio. reflexivity.
Qed.
Lemma e_protected : forall c kid, layout (protected_item c kid) = layout (protected_entry c kid).
Proof.
  intros [w h n b|r ch b] kid; unfold protected_item, protected_entry; destruct (e_sinf kid) as [S1 S2].
  - apply node_eq; [typ|]. rewrite e_video, S1. apply cons_eq; [reflexivity|]. apply cons_eq; [reflexivity|]. apply cons_eq; [|reflexivity]. apply leaf_eq; [typ|reflexivity].
  - apply node_eq; [typ|]. rewrite e_audio, S2. reflexivity.
Qed.
Lemma init_layout : forall now c ts id duration key pssh, all_layout (init_items now c ts id duration key pssh) = all_layout (init_boxes now c ts id duration key pssh).
Proof.
  intros. unfold init_items, init_boxes. cbv zeta. destruct e_zeros as (Z24 & Z10 & Z12 & Z8 & F1 & _ & Z12').
  apply cons_eq; [apply leaf_eq; [typ|exact e_ftyp]|]. apply cons_eq; [|reflexivity]. apply node_eq; [typ|].
  apply cons_eq.
  { apply leaf_eq; [typ|]. unfold mvhd1_body. rewrite F1, e_unity, Z24, Z10. rewrite !be8_split. rewrite <- (be32_u ts), <- (be32_u (id + 1)). change (u32 (0 / 2 ^ 32)) with 0. change (u32 0) with 0. rewrite !words1. change (words []) with (@nil Z). unfold be32. rewrite ?app_nil_r, <- ?app_assoc. reflexivity. }
  apply cons_eq.
  { unfold init_trak. apply node_eq; [typ|]. apply cons_eq.
    - apply leaf_eq; [typ|]. unfold tkhd_body. rewrite e_full01, e_unity. replace (id - 1 + 1) with id by lia. rewrite !be2_mod. rewrite !be4_high. rewrite Z12'. change (now mod 2 ^ 32) with (u32 now). rewrite !words1. change (words []) with (@nil Z). rewrite <- (be32_u id). unfold be32. change (u32 0) with 0.
      replace (vol c) with (if is_video c then 0 else 256) by (destruct c; reflexivity). replace (fst (size_of c)) with (wid c) by (destruct c; reflexivity). replace (snd (size_of c)) with (hei c) by (destruct c; reflexivity). rewrite ?app_nil_r, <- ?app_assoc. reflexivity.
    - apply cons_eq; [|reflexivity]. unfold init_mdia. apply node_eq; [typ|]. apply cons_eq.
      { apply leaf_eq; [typ|]. unfold mdhd_body, und. rewrite e_full00, e_lang. change (now mod 2 ^ 32) with (u32 now). rewrite !words1. change (words []) with (@nil Z). rewrite <- (be32_u ts). unfold be32. change (u32 0) with 0. rewrite ?app_nil_r, <- ?app_assoc. reflexivity. }
      apply cons_eq. { apply leaf_eq; [typ|]. rewrite e_hdlr. destruct c; reflexivity. }
      apply cons_eq; [|reflexivity]. unfold init_minf. apply node_eq; [typ|]. rewrite e_mhd, e_dinf. apply cons_eq; [reflexivity|]. apply cons_eq; [reflexivity|]. apply cons_eq; [|reflexivity].
      unfold init_stbl_item. rewrite e_tables. apply node_eq; [typ|]. apply cons_eq; [|reflexivity]. unfold stsd_items, entry_items. rewrite e_full00.
      destruct key as [kid|]; (apply node_eq; [typ|]); (apply cons_eq; [reflexivity|]); [apply cons_eq; [apply e_protected|]|]; (apply cons_eq; [apply e_plain|reflexivity]). }
  apply cons_eq; [|reflexivity]. unfold mvex_item. apply node_eq; [typ|]. rewrite e_full00. apply cons_eq; [apply leaf_eq; [typ|reflexivity]|]. apply cons_eq; [|reflexivity]. apply leaf_eq; [typ|]. rewrite words1, <- (be32_u id). rewrite Z12. reflexivity.
Qed.
