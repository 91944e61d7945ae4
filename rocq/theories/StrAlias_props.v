(** Property C45: strings as values. *)
From Coq Require Import String.
From Verif Require Import Util Str_model StrAlias_model StrAlias_proofs.
Local Open Scope Z_scope.

(** Every history whose appends go to strings shared with nobody behaves as if each
    variable held its own text: no memory error, every text is NUL-terminated inside
    its buffer and reads back as the value semantics says. *)
Theorem C45_value_semantics : forall vars l, legal_history true vars l ->
  exists s, srun l empty_state = SOk s /\ forall v, read_var s v = vrun l v.
Proof. exact value_ok. Qed.
Print Assumptions C45_value_semantics.

(** Every legal history, shared or not: an append is seen by exactly the variables
    sharing the target. *)
Theorem C45_reference_semantics : forall vars l, legal_history false vars l ->
  exists s, srun l empty_state = SOk s /\ forall v, read_var s v = rrun l v.
Proof. exact (reference_ok false). Qed.
Print Assumptions C45_reference_semantics.

(** Refuted in general: copying a string and appending to the copy changes the
    original. *)
Theorem C45_copy_aliases_refuted : forall t d, nonul t -> nonul d -> d <> [] ->
  exists s, srun [Assign 0 t; Copy 1 0; Append 1 d]%nat empty_state = SOk s
   /\ read_var s 0%nat = Some (t ++ d) /\ vrun [Assign 0 t; Copy 1 0; Append 1 d]%nat 0%nat = Some t /\ t ++ d <> t.
Proof.
  intros t d Ht Hd Hne. destruct (reference_ok false [0;1]%nat [Assign 0 t; Copy 1 0; Append 1 d]%nat) as (s & E & R).
  - cbn. intuition discriminate.
  - exists s. split; [exact E|]. rewrite R. split; [reflexivity|]. split; [reflexivity|].
    intros H. apply Hne. rewrite <- (app_nil_r t) in H at 2. apply app_inv_head in H. exact H.
Qed.
Print Assumptions C45_copy_aliases_refuted.
(** Refuted: s += s can read freed memory. *)
Theorem C45_self_append_refuted : srun [Assign 0 (str "ab"); AppendVar 0 0]%nat empty_state = MemoryError.
Proof. reflexivity. Qed.
Print Assumptions C45_self_append_refuted.

Example C45_nonvacuous :
  let h := [Assign 0 (str "a"); Copy 1 0; Plus 2 1 (str "b"); Clone 3 1; AppendVar 3 2; Append 3 (str "!"); Default 0; Append 0 (str "z")]%nat in
  legal_history true [0;1;2;3]%nat h /\ vrun h 3%nat = Some (str "aab!") /\ vrun h 1%nat = Some (str "a") /\ vrun h 0%nat = Some (str "z").
Proof.
  split; [|repeat split; reflexivity].
  unfold legal_history; cbn -[str]. repeat (first [split | left; reflexivity | right]); try (repeat constructor; discriminate);
    try (intros; intuition (subst; cbn; try reflexivity; try congruence)); try congruence; auto.
Qed.
