(** Shared vocabulary of the model: bytes, byte strings, finite sweeps.
    Nothing in this file models /repo; it is generic mathematics. *)
From Coq Require Export ZArith List Lia Bool.
From Coq Require Export ZifyBool.
Export ListNotations.
Global Open Scope Z_scope.

(** A byte is an integer in [0,256). *)
Definition is_byte (x : Z) : Prop := 0 <= x < 256.
Definition bytes (l : list Z) : Prop := Forall is_byte l.

Definition is_byteb (x : Z) : bool := (0 <=? x) && (x <? 256).

Ltac dmlia := Z.div_mod_to_equations; lia.

(** [zseq a n] = [a; a+1; ...; a+n-1] *)
Fixpoint zseq (a : Z) (n : nat) : list Z :=
  match n with O => [] | S k => a :: zseq (a + 1) k end.

Lemma zseq_In a n x : In x (zseq a n) <-> a <= x < a + Z.of_nat n.
Proof.
  revert a; induction n as [|n IH]; intros a; cbn [zseq In].
  - lia.
  - rewrite IH. lia.
Qed.

Lemma sweep (P : Z -> bool) (lo : Z) (n : nat) :
  forallb P (zseq lo n) = true -> forall x, lo <= x < lo + Z.of_nat n -> P x = true.
Proof.
  intros H x Hx. rewrite forallb_forall in H. apply H. apply zseq_In. exact Hx.
Qed.

(** finite sweep over all bytes *)
Lemma byte_sweep (P : Z -> bool) :
  forallb P (zseq 0 256) = true -> forall x, is_byte x -> P x = true.
Proof. intros H x Hx. apply (sweep P 0 256 H). unfold is_byte in Hx. lia. Qed.

(** finite sweep over all pairs of bytes *)
Lemma byte_sweep2 (P : Z -> Z -> bool) :
  forallb (fun x => forallb (P x) (zseq 0 256)) (zseq 0 256) = true ->
  forall x y, is_byte x -> is_byte y -> P x y = true.
Proof.
  intros H x y Hx Hy.
  pose proof (byte_sweep _ H x Hx) as H1. cbv beta in H1.
  exact (byte_sweep _ H1 y Hy).
Qed.

Lemma bytes_app l1 l2 : bytes (l1 ++ l2) <-> bytes l1 /\ bytes l2.
Proof. apply Forall_app. Qed.

Lemma bytes_cons x l : bytes (x :: l) <-> is_byte x /\ bytes l.
Proof. split; [intros H; inversion H; auto | intros [H1 H2]; constructor; auto]. Qed.

Lemma bytes_concat ls : bytes (concat ls) <-> Forall bytes ls.
Proof.
  induction ls as [|l ls IH]; cbn [concat].
  - split; constructor.
  - rewrite bytes_app, IH. split; [intros [H1 H2]; constructor; auto | intros H; inversion H; auto].
Qed.

Definition zlen {A} (l : list A) : Z := Z.of_nat (length l).

Lemma zlen_app {A} (l1 l2 : list A) : zlen (l1 ++ l2) = zlen l1 + zlen l2.
Proof. unfold zlen. rewrite app_length. lia. Qed.
Lemma zlen_cons {A} (x : A) l : zlen (x :: l) = 1 + zlen l.
Proof. unfold zlen. cbn [length]. lia. Qed.
Lemma zlen_nil {A} : zlen (@nil A) = 0.
Proof. reflexivity. Qed.
Lemma zlen_nonneg {A} (l : list A) : 0 <= zlen l.
Proof. unfold zlen; lia. Qed.

Lemma skipn_skipn {A} (x y : nat) (l : list A) : skipn x (skipn y l) = skipn (x + y) l.
Proof.
  revert x l; induction y as [|y IH]; intros x l.
  - rewrite Nat.add_0_r. reflexivity.
  - rewrite Nat.add_succ_r. destruct l as [|a l]; cbn [skipn]; [apply skipn_nil|]. apply IH.
Qed.

Lemma NoDup_app_l {A} (l1 l2 : list A) : NoDup (l1 ++ l2) -> NoDup l1.
Proof.
  induction l1 as [|x l1 IH]; intros H; [constructor|]. inversion H; subst. constructor; auto.
  intros Hx. apply H2, in_or_app. auto.
Qed.
Lemma NoDup_app_r {A} (l1 l2 : list A) : NoDup (l1 ++ l2) -> NoDup l2.
Proof. induction l1 as [|x l1 IH]; intros H; [exact H|]. inversion H; subst. auto. Qed.
