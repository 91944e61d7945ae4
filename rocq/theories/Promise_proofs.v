From Coq Require Import ZArith List Bool Arith Lia.
From Verif Require Import Promise_model.
Import ListNotations.
Local Open Scope Z_scope.

Lemma head_calls_app a b : head_calls (a ++ b) = head_calls a ++ head_calls b.
Proof. apply flat_map_app. Qed.

Lemma call_er_no_called x : forall l d l' ev e, call_er d l x = (l', ev, e) -> head_calls ev = [].
Proof.
  induction l as [|n rest IH]; intros d l' ev e H; cbn in H; [injection H as <- <- <-; reflexivity|].
  destruct (er n) as [h|]; [|injection H as <- <- <-; reflexivity].
  destruct (reacts h x) as [y|[]]; try (injection H as <- <- <-; reflexivity).
  destruct (call_er (S d) rest x) as [[r ev1] e1] eqn:E. injection H as <- <- <-. cbn. eauto.
Qed.
Lemma call_er_head x : forall l d l' ev e, call_er d l x = (l', ev, e) ->
  match l, l' with
  | [], [] => True | n :: _, n' :: _ => cb n' = cb n /\ value n' = value n | _, _ => False end.
Proof.
  destruct l as [|n rest]; intros d l' ev e H; cbn in H; [injection H as <- <- <-; exact I|].
  destruct (er n) as [h|]; [|injection H as <- <- <-; auto].
  destruct (reacts h x) as [y|[]]; try (injection H as <- <- <-; auto).
  destruct (call_er (S d) rest x) as [[r ev1] e1] eqn:E. injection H as <- <- <-. auto.
Qed.
Lemma call_cb_deep v : forall l d l' ev e, call_cb (S d) l v = (l', ev, e) -> head_calls ev = [].
Proof.
  induction l as [|n rest IH]; intros d l' ev e H; cbn [call_cb] in H; [injection H as <- <- <-; reflexivity|].
  destruct (cb n) as [c|]; [|injection H as <- <- <-; reflexivity].
  destruct (throws c v) as [x|].
  - destruct (call_er (S d) (n :: rest) x) as [[r ev1] e1] eqn:E. injection H as <- <- <-. cbn.
    apply (call_er_no_called _ _ _ _ _ _ E).
  - destruct (call_cb (S (S d)) rest v) as [[r ev1] e1] eqn:E. destruct e1 as [x|].
    + destruct (call_er (S d) (n :: r) x) as [[r2 ev2] e2] eqn:E2. injection H as <- <- <-.
      change (head_calls (ev1 ++ ev2) = []). rewrite head_calls_app, (IH _ _ _ _ E), (call_er_no_called _ _ _ _ _ _ E2). reflexivity.
    + injection H as <- <- <-. change (head_calls ev1 = []). eauto.
Qed.

(** head of the chain: callback and stored value *)
Definition headv (l : list node) : option (option cont * option Z) :=
  match l with [] => None | n :: _ => Some (cb n, value n) end.

Lemma call_cb_set n rest c v l' ev e : cb n = Some c -> call_cb 0 (n :: rest) v = (l', ev, e) ->
  head_calls ev = [(cid c, v)] /\ headv l' = Some (Some c, value n).
Proof.
  intros Hc H. cbn [call_cb] in H. rewrite Hc in H. destruct (throws c v) as [x|].
  - destruct (call_er 0 (n :: rest) x) as [[r ev1] e1] eqn:E. injection H as <- <- <-.
    pose proof (call_er_head _ _ _ _ _ _ E) as HH. destruct r as [|n' r]; [contradiction|]. destruct HH as [H1 H2].
    split; [|cbn; rewrite H1, H2, Hc; reflexivity].
    change ((cid c, v) :: head_calls ev1 = [(cid c, v)]). rewrite (call_er_no_called _ _ _ _ _ _ E). reflexivity.
  - destruct (call_cb 1 rest v) as [[r ev1] e1] eqn:E. destruct e1 as [x|].
    + destruct (call_er 0 (n :: r) x) as [[r2 ev2] e2] eqn:E2. injection H as <- <- <-.
      pose proof (call_er_head _ _ _ _ _ _ E2) as HH. destruct r2 as [|n' r2]; [contradiction|]. destruct HH as [H1 H2].
      split; [|cbn; rewrite H1, H2, Hc; reflexivity].
      change ((cid c, v) :: head_calls (ev1 ++ ev2) = [(cid c, v)]).
      rewrite head_calls_app, (call_cb_deep _ _ _ _ _ _ E), (call_er_no_called _ _ _ _ _ _ E2). reflexivity.
    + injection H as <- <- <-. split; [|cbn; rewrite Hc; reflexivity].
      change ((cid c, v) :: head_calls ev1 = [(cid c, v)]). rewrite (call_cb_deep _ _ _ _ _ _ E). reflexivity.
Qed.

Lemma deep_no_head_calls : forall d l k l' ev e, do_call (S d) l k = (l', ev, e) -> head_calls ev = [].
Proof.
  intros d l k l' ev e H. destruct k; cbn [do_call] in H.
  - unfold set_cb in H. destruct l as [|n rest]; [injection H as <- <- <-; reflexivity|].
    destruct (value n); [eapply call_cb_deep, H|injection H as <- <- <-; reflexivity].
  - unfold set_er in H. destruct l as [|n rest]; [injection H as <- <- <-; reflexivity|].
    destruct (eptr n); [eapply call_er_no_called, H|injection H as <- <- <-; reflexivity].
  - eapply call_cb_deep, H.
  - eapply call_er_no_called, H.
  - injection H as <- <- <-. reflexivity.
Qed.

(** Calls other than set-callback and resolve on the head do not touch it. *)
Lemma other_step l i k l' ev : is_set0 (i, k) = false -> is_call0 (i, k) = false ->
  l <> [] -> at_depth l i k = (l', ev) -> head_calls ev = [] /\ headv l' = headv l.
Proof.
  intros Hs Hc Hl H. unfold at_depth in H. destruct i as [|i].
  - cbn [skipn firstn app] in H. destruct (do_call 0 l k) as [[r ev1] e] eqn:E. injection H as <- <-.
    destruct l as [|n rest]; [congruence|].
    destruct k; cbn in Hs, Hc; try discriminate; cbn [do_call] in E.
    + cbn [set_er] in E. destruct (eptr n) as [x|].
      * split; [eapply call_er_no_called, E|]. pose proof (call_er_head _ _ _ _ _ _ E) as HH.
        destruct r as [|n' r]; [contradiction|]. cbn in HH |- *. destruct HH as [-> ->]. reflexivity.
      * injection E as <- <- <-. auto.
    + split; [eapply call_er_no_called, E|]. pose proof (call_er_head _ _ _ _ _ _ E) as HH.
      destruct r as [|n' r]; [contradiction|]. cbn. destruct HH as [-> ->]. reflexivity.
    + injection E as <- <- <-. split; [reflexivity|]. destruct rest; reflexivity.
  - destruct (do_call (S i) (skipn (S i) l) k) as [[r ev1] e] eqn:E. injection H as <- <-.
    split; [eapply deep_no_head_calls, E|]. destruct l; [congruence|]. reflexivity.
Qed.

Lemma others h : forall l l' ev, forallb (fun x => negb (is_set0 x) && negb (is_call0 x)) h = true -> l <> [] ->
  history l h = (l', ev) -> head_calls ev = [] /\ headv l' = headv l /\ l' <> [].
Proof.
  induction h as [|[i k] h IH]; intros l l' ev HF Hl H; cbn [history] in H.
  - injection H as <- <-. auto.
  - cbn [forallb] in HF. apply andb_prop in HF. destruct HF as [H1 HF]. apply andb_prop in H1. destruct H1 as [Ha Hb].
    apply negb_true_iff in Ha, Hb.
    destruct (at_depth l i k) as [l1 e1] eqn:E1. destruct (history l1 h) as [l2 e2] eqn:E2. injection H as <- <-.
    destruct (other_step l i k l1 e1 Ha Hb Hl E1) as [A B].
    assert (Hl1 : l1 <> []) by (destruct l1; [destruct l; [congruence|discriminate]|congruence]).
    destruct (IH l1 l2 e2 HF Hl1 E2) as (C & D & F).
    rewrite head_calls_app, A, C, D, B. auto.
Qed.

Lemma history_app h1 : forall h2 l, history l (h1 ++ h2) =
  (let '(l1, e1) := history l h1 in let '(l2, e2) := history l1 h2 in (l2, e1 ++ e2)).
Proof.
  induction h1 as [|[i k] h1 IH]; intros h2 l; cbn [history app].
  - destruct (history l h2); reflexivity.
  - destruct (at_depth l i k) as [l1 e1]. rewrite IH. destruct (history l1 h1) as [l2 e2]. destruct (history l2 h2) as [l3 e3].
    rewrite app_assoc. reflexivity.
Qed.


Lemma set_step l c l' ev : headv l = Some (None, None) -> at_depth l 0 (SetCb c) = (l', ev) ->
  head_calls ev = [] /\ headv l' = Some (Some c, None).
Proof.
  destruct l as [|n rest]; [discriminate|]. cbn [headv]. intros [= Hc Hv]. unfold at_depth. cbn [skipn firstn do_call set_cb].
  rewrite Hv. cbn. intros [= <- <-]. auto.
Qed.
Lemma resolve_step_unset l v l' ev : headv l = Some (None, None) -> at_depth l 0 (CallCb v) = (l', ev) ->
  head_calls ev = [] /\ headv l' = Some (None, Some v).
Proof.
  destruct l as [|n rest]; [discriminate|]. cbn [headv]. intros [= Hc Hv]. unfold at_depth. cbn [skipn firstn do_call call_cb].
  rewrite Hc. cbn. intros [= <- <-]. auto.
Qed.
Lemma resolve_step_set l c v l' ev w : headv l = Some (Some c, w) -> at_depth l 0 (CallCb v) = (l', ev) ->
  head_calls ev = [(cid c, v)] /\ l' <> [].
Proof.
  destruct l as [|n rest]; [discriminate|]. cbn [headv]. intros [= Hc Hv]. unfold at_depth. cbn [skipn firstn do_call].
  destruct (call_cb 0 (n :: rest) v) as [[r ev1] e] eqn:E. intros [= <- <-].
  destruct (call_cb_set n rest c v _ _ _ Hc E) as [A B]. split; [exact A|]. destruct r; [discriminate|]. cbn. congruence.
Qed.
Lemma set_step_resolved l c v l' ev : headv l = Some (None, Some v) -> at_depth l 0 (SetCb c) = (l', ev) ->
  head_calls ev = [(cid c, v)] /\ l' <> [].
Proof.
  destruct l as [|n rest]; [discriminate|]. cbn [headv]. intros [= Hc Hv]. unfold at_depth. cbn [skipn firstn do_call set_cb].
  rewrite Hv.
  destruct (call_cb 0 _ v) as [[r ev1] e] eqn:E. intros [= <- <-].
  destruct (call_cb_set (mknode (Some c) (er n) (Some v) (eptr n)) rest c v _ _ _ eq_refl E) as [A B]. split; [exact A|]. destruct r; [discriminate|]. cbn. congruence.
Qed.

Lemma exactly_once h1 h2 h3 c v (resolve_first : bool) :
  quiet h1 -> quiet h2 -> quiet h3 ->
  let first := if resolve_first then CallCb v else SetCb c in
  let second := if resolve_first then SetCb c else CallCb v in
  head_calls (snd (history [new_node] (h1 ++ (0%nat, first) :: h2))) = [] /\
  head_calls (snd (history [new_node] (h1 ++ (0%nat, first) :: h2 ++ (0%nat, second) :: h3))) = [(cid c, v)].
Proof.
  intros Q1 Q2 Q3 first second.
  destruct (history [new_node] h1) as [l1 e1] eqn:E1.
  destruct (others h1 [new_node] l1 e1 Q1 ltac:(discriminate) E1) as (A1 & B1 & N1). cbn in B1.
  rewrite !history_app, E1. cbn [history].
  destruct (at_depth l1 0 first) as [l2 e2] eqn:E2.
  assert (HF : head_calls e2 = [] /\ headv l2 = Some (if resolve_first then (None, Some v) else (Some c, None))).
  { unfold first in E2. destruct resolve_first; [eapply resolve_step_unset|eapply set_step]; eauto. }
  destruct HF as [A2 B2].
  rewrite history_app.
  destruct (history l2 h2) as [l3 e3] eqn:E3.
  destruct (others h2 l2 l3 e3 Q2 ltac:(destruct l2; [destruct resolve_first; discriminate|congruence]) E3) as (A3 & B3 & N3).
  split. { cbn [snd]. rewrite !head_calls_app, A1, A2, A3. reflexivity. }
  cbn [history].
  destruct (at_depth l3 0 second) as [l4 e4] eqn:E4.
  assert (HG : head_calls e4 = [(cid c, v)] /\ l4 <> []).
  { unfold second in E4. rewrite B2 in B3. destruct resolve_first; [eapply set_step_resolved|eapply resolve_step_set]; eauto. }
  destruct HG as [A4 N4].
  destruct (history l4 h3) as [l5 e5] eqn:E5.
  destruct (others h3 _ _ _ Q3 N4 E5) as (A5 & _ & _).
  cbn [snd]. rewrite !head_calls_app, A1, A2, A3, A4, A5. reflexivity.
Qed.

(** A chain whose promises all have non-throwing continuations. *)
Lemma chain_fires v : forall cs d, (forall c, In c cs -> throws c v = None) ->
  call_cb d (map (fun c => mknode (Some c) None None None) cs) v =
  (map (fun c => mknode (Some c) None None None) cs,
   map (fun ic => Called (fst ic) (cid (snd ic)) v) (combine (seq d (length cs)) cs), None).
Proof.
  induction cs as [|c cs IH]; intros d H; [reflexivity|]. cbn [map call_cb cb]. rewrite (H c (or_introl eq_refl)).
  rewrite IH by (intros; apply H; right; assumption). reflexivity.
Qed.
