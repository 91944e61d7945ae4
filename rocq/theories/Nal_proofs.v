(** Proofs for Nal_model. *)
From Coq Require Import ZifyNat.
From Verif Require Import Util Nal_model.
Local Open Scope Z_scope.

Lemma dl_cons x l : l <> [] -> x <> 0 -> decode_loop (x :: l) = x :: decode_loop l.
Proof.
  intros Hl Hx. destruct l as [|y [|z r]]; [congruence|reflexivity|]. cbn [decode_loop]. destruct (Z.eqb_spec x 0); [contradiction|]. reflexivity.
Qed.
Lemma dl_0x x l : x <> 0 -> decode_loop (0 :: x :: l) = 0 :: decode_loop (x :: l).
Proof. intros Hx. destruct l as [|z r]; [reflexivity|]. cbn [decode_loop]. destruct (Z.eqb_spec x 0); [contradiction|]. reflexivity. Qed.
Lemma dl_00x x l : x <> 3 -> x <> 0 -> decode_loop (0 :: 0 :: x :: l) = 0 :: 0 :: decode_loop (x :: l).
Proof.
  intros H3 H0. transitivity (0 :: decode_loop (0 :: x :: l)).
  - cbn [decode_loop]. destruct (Z.eqb_spec x 3); [contradiction|]. reflexivity.
  - rewrite dl_0x by exact H0. reflexivity.
Qed.
Lemma w3_cons x l : l <> [] -> without_last_3 (x :: l) = x :: without_last_3 l.
Proof. intros H. unfold without_last_3. destruct l as [|y l]; [congruence|]. change (last (x :: y :: l) 0) with (last (y :: l) 0). destruct (last (y :: l) 0 =? 3); reflexivity. Qed.
Lemma esc_nil z l : escape z l = [] -> z = 0%nat /\ l = [].
Proof. destruct l as [|x l]; cbn [escape]; [destruct z; [auto|discriminate]|]. destruct z as [|[|[|z]]]; try discriminate. destruct (x <=? 3); discriminate. Qed.
Lemma dl_step x l : x <> 0 -> (forall m, (length m <= length l)%nat -> m = l -> decode_loop (escape 0 m) = without_last_3 m) ->
  decode_loop (x :: escape 0 l) = without_last_3 (x :: l).
Proof.
  intros Hx IH. destruct l as [|y l].
  - cbn [escape decode_loop]. unfold without_last_3. cbn [last removelast]. reflexivity.
  - assert (NE : escape 0 (y :: l) <> []) by (intros E; destruct (esc_nil _ _ E) as [_ E2]; discriminate E2).
    rewrite dl_cons by assumption. rewrite IH with (m := y :: l); auto. rewrite (w3_cons x) by discriminate. reflexivity.
Qed.
Lemma dec_esc : forall l, decode_loop (escape 0 l) = without_last_3 l /\ decode_loop (0 :: escape 1 l) = without_last_3 (0 :: l)
   /\ decode_loop (0 :: 0 :: escape 2 l) = without_last_3 (0 :: 0 :: l).
Proof.
  induction l as [|x l (I0 & I1 & I2)]; [repeat split; reflexivity|].
  assert (N : x <> 0 -> decode_loop (x :: escape 0 l) = without_last_3 (x :: l)) by (intros Hx; apply dl_step; [exact Hx|intros m _ ->; exact I0]).
  split; [|split].
  - cbn [escape]. destruct (Z.eqb_spec x 0) as [->|Hx]; [exact I1|apply N, Hx].
  - cbn [escape]. destruct (Z.eqb_spec x 0) as [->|Hx]; [exact I2|]. rewrite dl_0x, N by exact Hx. rewrite (w3_cons 0) by discriminate. reflexivity.
  - cbn [escape]. destruct (Z.leb_spec x 3) as [H3|H3].
    + change (decode_loop (0 :: 0 :: 3 :: x :: escape (if x =? 0 then 1 else 0) l)) with (0 :: 0 :: decode_loop (x :: escape (if x =? 0 then 1 else 0) l)).
      rewrite !(w3_cons 0) by discriminate. f_equal. f_equal. destruct (Z.eqb_spec x 0) as [->|Hx]; [exact I1|apply N, Hx].
    + rewrite dl_00x, N by lia. rewrite !(w3_cons 0) by discriminate. reflexivity.
Qed.

(** output never longer than input, bytes stay bytes *)
Lemma dl_length : forall n l, (length l <= n)%nat -> (length (decode_loop l) <= length l)%nat.
Proof.
  induction n as [|n IH]; intros l H; [destruct l; [apply le_n|cbn [length] in H; lia]|].
  destruct l as [|x [|y [|z r]]]; cbn [length] in *.
  - apply le_n.
  - cbn [decode_loop]. destruct (x =? 3); cbn [length]; lia.
  - cbn [decode_loop]. destruct (y =? 3); cbn [length]; lia.
  - cbn [decode_loop]. destruct ((x =? 0) && (y =? 0) && (z =? 3)).
    + cbn [length]. specialize (IH r ltac:(lia)). lia.
    + specialize (IH (y :: z :: r) ltac:(cbn [length]; lia)). cbn [length] in *. fold (decode_loop (y :: z :: r)). change (match r with [] => _ | _ => _ end) with (decode_loop (y :: z :: r)). lia.
Qed.

(** * In place *)
Lemma set_nth_length k v l : (k < length l)%nat -> length (set_nth k v l) = length l.
Proof. intros H. unfold set_nth. rewrite app_length, firstn_length. cbn [length]. rewrite skipn_length. lia. Qed.
Lemma nth_set_nth k v l j : (k < length l)%nat -> nth j (set_nth k v l) 0 = if Nat.eqb j k then v else nth j l 0.
Proof.
  intros H. unfold set_nth. destruct (Nat.eqb_spec j k) as [->|N].
  - rewrite app_nth2; rewrite firstn_length; [|lia]. replace (k - Nat.min k (length l))%nat with 0%nat by lia. reflexivity.
  - destruct (Nat.lt_ge_cases j k).
    + rewrite app_nth1 by (rewrite firstn_length; lia). rewrite <- (firstn_skipn k l) at 2. rewrite app_nth1 by (rewrite firstn_length; lia). reflexivity.
    + rewrite app_nth2 by (rewrite firstn_length; lia). rewrite firstn_length. replace (j - Nat.min k (length l))%nat with (S (j - S k)) by lia. cbn [nth].
      rewrite <- (firstn_skipn (S k) l) at 2. rewrite app_nth2 by (rewrite firstn_length; lia). f_equal. rewrite firstn_length. lia.
Qed.
Lemma firstn_set_nth k v l : (k < length l)%nat -> firstn (S k) (set_nth k v l) = firstn k l ++ [v].
Proof.
  intros H. unfold set_nth. rewrite firstn_app, firstn_length. replace (S k - Nat.min k (length l))%nat with 1%nat by lia.
  rewrite firstn_firstn. replace (Nat.min (S k) k) with k by lia. reflexivity.
Qed.
Lemma skipn_set_nth k v l m : (k < m)%nat -> (k < length l)%nat -> skipn m (set_nth k v l) = skipn m l.
Proof.
  intros H Hk. unfold set_nth. rewrite skipn_app, firstn_length. rewrite skipn_all2 by (rewrite firstn_length; lia). cbn [app].
  replace (m - Nat.min k (length l))%nat with (S (m - S k)) by lia. change (skipn (S (m - S k)) (v :: skipn (S k) l)) with (skipn (m - S k) (skipn (S k) l)). rewrite skipn_skipn. f_equal. lia.
Qed.
Lemma skipn_nth (l : list Z) k : (k < length l)%nat -> skipn k l = nth k l 0 :: skipn (S k) l.
Proof. revert k. induction l as [|x l IH]; intros k H; [cbn [length] in H; lia|]. destruct k as [|k]; [reflexivity|]. cbn [skipn nth]. apply IH. cbn [length] in H. lia. Qed.
Lemma in_place_ok n : forall fuel p i w, length p = S n -> (i <= n)%nat -> (w <= i + 1)%nat -> (n - i < fuel)%nat ->
  exists p' w', in_place_loop fuel p i w n = (p', w') /\ length p' = S n /\ firstn w' p' = firstn w p ++ decode_loop (skipn (i + 1) p) /\ (w' <= S n)%nat.
Proof.
  induction fuel as [|fuel IH]; intros p i w L Hi Hw Hf; [lia|]. cbn [in_place_loop].
  destruct (Nat.ltb_spec i n) as [Hin|Hin].
  2:{ exists p, w. split; [reflexivity|]. split; [exact L|]. split; [|lia]. rewrite skipn_all2 by lia. cbn [decode_loop]. rewrite app_nil_r. reflexivity. }
  pose proof (skipn_nth p (i + 1) ltac:(lia)) as S1.
  destruct (Nat.eqb_spec (i + 1) n) as [E1|E1]; cbn [andb].
  - assert (S0 : skipn (S (i + 1)) p = []) by (apply skipn_all2; lia). rewrite S0 in S1.
    destruct (Z.eqb_spec (nth (i + 1) p 0) 3) as [E3|E3].
    + exists p, w. split; [reflexivity|]. split; [exact L|]. split; [|lia]. rewrite S1, E3. cbn [decode_loop Z.eqb Pos.eqb]. rewrite app_nil_r. reflexivity.
    + destruct (Nat.ltb_spec (i + 2) n); [lia|]. cbn [andb].
      destruct (IH (set_nth w (nth (i + 1) p 0) p) (i + 1)%nat (w + 1)%nat) as (p' & w' & E & L' & F & W); [rewrite set_nth_length; lia|lia|lia|lia|].
      exists p', w'. split; [exact E|]. split; [exact L'|]. split; [|exact W]. rewrite F. replace (w + 1)%nat with (S w) by lia. rewrite firstn_set_nth by lia.
      rewrite skipn_all2 by (rewrite set_nth_length; lia). cbn [decode_loop]. rewrite app_nil_r. rewrite S1. cbn [decode_loop]. destruct (Z.eqb_spec (nth (i + 1) p 0) 3); [contradiction|]. reflexivity.
  - pose proof (skipn_nth p (S (i + 1)) ltac:(lia)) as S2.
    destruct (Nat.ltb_spec (i + 2) n) as [H2|H2]; cbn [andb].
    + pose proof (skipn_nth p (S (S (i + 1))) ltac:(lia)) as S3.
      replace (S (i + 1)) with (i + 2)%nat in * by lia. replace (S (i + 2)) with (i + 3)%nat in * by lia.
      rewrite S1, S2, S3. destruct ((nth (i + 1) p 0 =? 0) && (nth (i + 2) p 0 =? 0) && (nth (i + 3) p 0 =? 3)) eqn:EC.
      * destruct (IH (set_nth (w + 1) 0 (set_nth w 0 p)) (i + 3)%nat (w + 2)%nat) as (p' & w' & E & L' & F & W); [rewrite !set_nth_length; rewrite ?set_nth_length; lia|lia|lia|lia|].
        exists p', w'. split; [exact E|]. split; [exact L'|]. split; [|exact W]. rewrite F. replace (w + 2)%nat with (S (w + 1)) by lia. rewrite firstn_set_nth by (rewrite set_nth_length; lia).
        replace (w + 1)%nat with (S w) by lia. rewrite firstn_set_nth by lia. rewrite !skipn_set_nth by (rewrite ?set_nth_length; lia).
        cbn [decode_loop]. rewrite EC. rewrite <- !app_assoc. cbn [app]. replace (i + 3 + 1)%nat with (S (i + 3)) by lia. reflexivity.
      * destruct (IH (set_nth w (nth (i + 1) p 0) p) (i + 1)%nat (w + 1)%nat) as (p' & w' & E & L' & F & W); [rewrite set_nth_length; lia|lia|lia|lia|].
        exists p', w'. split; [exact E|]. split; [exact L'|]. split; [|exact W]. rewrite F. replace (w + 1)%nat with (S w) by lia. rewrite firstn_set_nth by lia.
        rewrite skipn_set_nth by lia. replace (i + 1 + 1)%nat with (i + 2)%nat by lia. rewrite S2, S3. rewrite <- app_assoc. cbn [app].
        f_equal. change (decode_loop (nth (i + 1) p 0 :: nth (i + 2) p 0 :: nth (i + 3) p 0 :: skipn (S (i + 3)) p)) with
          (if (nth (i + 1) p 0 =? 0) && (nth (i + 2) p 0 =? 0) && (nth (i + 3) p 0 =? 3) then 0 :: 0 :: decode_loop (skipn (S (i + 3)) p) else nth (i + 1) p 0 :: decode_loop (nth (i + 2) p 0 :: nth (i + 3) p 0 :: skipn (S (i + 3)) p)).
        rewrite EC. reflexivity.
    + replace (S (i + 1)) with (i + 2)%nat in * by lia.
      destruct (IH (set_nth w (nth (i + 1) p 0) p) (i + 1)%nat (w + 1)%nat) as (p' & w' & E & L' & F & W); [rewrite set_nth_length; lia|lia|lia|lia|].
      exists p', w'. split; [exact E|]. split; [exact L'|]. split; [|exact W]. rewrite F. replace (w + 1)%nat with (S w) by lia. rewrite firstn_set_nth by lia.
      rewrite skipn_set_nth by lia. replace (i + 1 + 1)%nat with (i + 2)%nat by lia. assert (S0 : skipn (S (i + 2)) p = []) by (apply skipn_all2; lia). rewrite S1, S2, S0. rewrite <- app_assoc. cbn [app]. reflexivity.
Qed.
