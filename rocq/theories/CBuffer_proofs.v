From Coq Require Import ZArith List Bool Arith Lia.
From Verif Require Import CBuffer_model.
Import ListNotations.

Definition WF (b : cbuf) : Prop := current b <= length (mem b) /\ 0 < origin b.

Lemma enlarge_wf size b : WF b -> WF (enlarge size b) /\ content (enlarge size b) = content b
  /\ length (mem (enlarge size b)) = length (mem b) + Nat.max (origin b) size
  /\ current (enlarge size b) = current b /\ origin (enlarge size b) = origin b.
Proof.
  intros [A B]. unfold enlarge, WF, content. cbn [mem current origin].
  assert (E : (if size <? origin b then origin b else size) = Nat.max (origin b) size).
  { destruct (Nat.ltb_spec size (origin b)); lia. }
  rewrite E. rewrite app_length, firstn_length, repeat_length.
  repeat split; try lia.
  rewrite firstn_app, firstn_firstn, firstn_length, Nat.min_id.
  replace (current b - Nat.min (current b) (length (mem b))) with 0 by lia. cbn [firstn]. apply app_nil_r.
Qed.

Lemma prepare_ok size b : WF b -> exists b', prepare FUEL size b = Some b' /\ WF b' /\ content b' = content b
  /\ size < length (mem b') - current b' /\ current b' = current b /\ origin b' = origin b /\ length (mem b) <= length (mem b').
Proof.
  intros HW. unfold FUEL. cbn [prepare].
  destruct (Nat.leb_spec (length (mem b) - current b) size) as [H1|H1].
  - destruct (enlarge_wf size b HW) as (W1 & C1 & L1 & K1 & O1). set (b1 := enlarge size b) in *.
    destruct (Nat.leb_spec (length (mem b1) - current b1) size) as [H2|H2].
    + destruct (enlarge_wf size b1 W1) as (W2 & C2 & L2 & K2 & O2). set (b2 := enlarge size b1) in *.
      destruct (Nat.leb_spec (length (mem b2) - current b2) size) as [H3|H3].
      * exfalso. destruct HW. lia.
      * exists b2. repeat split; try apply W2; try congruence; lia.
    + exists b1. repeat split; try apply W1; try congruence; lia.
  - exists b. repeat split; try apply HW; auto.
Qed.

Lemma blit_ok m c data : c + length data <= length m -> exists m', blit m c data = Some m' /\ length m' = length m
  /\ firstn (c + length data) m' = firstn c m ++ data.
Proof.
  intros H. unfold blit. destruct (Nat.leb_spec (c + length data) (length m)); [|lia].
  eexists. split; [reflexivity|]. split.
  - rewrite !app_length, firstn_length, skipn_length. lia.
  - rewrite app_assoc. rewrite firstn_app, app_length, firstn_length.
    replace (c + length data - (Nat.min c (length m) + length data)) with 0 by lia.
    cbn [firstn]. rewrite app_nil_r. apply firstn_all2. rewrite app_length, firstn_length. lia.
Qed.

Lemma do_op_ok o b : WF b -> legal o (content b) ->
  exists b', do_op o b = OK b' /\ WF b' /\ content b' = spec_op o (content b).
Proof.
  intros HW HL. destruct o as [d|n d| |n z]; cbn [do_op spec_op legal] in *.
  - unfold add. destruct d as [|x d]; [exists b; rewrite app_nil_r; auto|].
    set (D := x :: d) in *.
    destruct (prepare_ok (length D) b HW) as (b1 & -> & [W1 W1'] & C1 & F1 & K1 & O1 & _).
    destruct (blit_ok (mem b1) (current b1) D ltac:(lia)) as (m & -> & Lm & Fm).
    eexists. split; [reflexivity|]. unfold WF, content in *. cbn [mem current origin].
    repeat split; try lia. rewrite Fm, <- C1. reflexivity.
  - unfold direct.
    destruct (prepare_ok n b HW) as (b1 & -> & [W1 W1'] & C1 & F1 & K1 & O1 & _).
    destruct (blit_ok (mem b1) (current b1) d ltac:(lia)) as (m & -> & Lm & Fm).
    eexists. split; [reflexivity|]. unfold WF, content in *. cbn [mem current origin].
    repeat split; try lia. rewrite Fm, <- C1. reflexivity.
  - eexists. split; [reflexivity|]. unfold WF, content, reset. cbn [mem current origin firstn].
    destruct HW. repeat split; try lia.
  - unfold back. destruct HW as [W1 W2]. unfold content in *. rewrite firstn_length in HL.
    destruct (Nat.ltb_spec (current b) n); [lia|].
    eexists. split; [reflexivity|]. unfold WF. cbn [mem current origin].
    rewrite firstn_length, firstn_firstn. replace (Nat.min (Nat.min (current b) (length (mem b)) - n) (current b)) with (current b - n) by lia.
    destruct z.
    + rewrite !app_length, firstn_length, repeat_length, skipn_length. repeat split; try lia.
      rewrite firstn_app, firstn_firstn, firstn_length.
      replace (current b - n - Nat.min (current b - n) (length (mem b))) with 0 by lia.
      cbn [firstn]. rewrite app_nil_r. f_equal. lia.
    + repeat split; lia.
Qed.

Lemma run_ok l : forall b, WF b -> legal_run l (content b) ->
  exists b', run l b = OK b' /\ WF b' /\ content b' = spec_run l (content b).
Proof.
  induction l as [|o l IH]; intros b HW HL; cbn [run spec_run fold_left]; [eauto|].
  destruct HL as [H1 H2]. destruct (do_op_ok o b HW H1) as (b1 & -> & W1 & C1).
  rewrite <- C1 in H2. destruct (IH b1 W1 H2) as (b2 & -> & W2 & C2).
  exists b2. split; [auto|]. split; [auto|]. rewrite C2, C1. reflexivity.
Qed.

Lemma run_create l size : 0 < size -> legal_run l [] ->
  exists b, run l (create size) = OK b /\ current b <= length (mem b) /\ firstn (current b) (mem b) = spec_run l [].
Proof.
  intros Hs HL. destruct (run_ok l (create size)) as (b & E & [W _] & C).
  - unfold WF, create. cbn. rewrite repeat_length. lia.
  - exact HL.
  - exists b. auto.
Qed.

Lemma adds_concat ds : forall c, spec_run (map Add ds) c = c ++ concat ds.
Proof.
  induction ds as [|d ds IH]; intros c; cbn; [rewrite app_nil_r; reflexivity|].
  unfold spec_run in *. rewrite IH, app_assoc. reflexivity.
Qed.
Lemma adds_legal ds : forall c, legal_run (map Add ds) c.
Proof. induction ds; intros c; cbn; auto. Qed.
