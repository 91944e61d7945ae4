(** Proofs about Movie_model: words, tables read from bytes, and what the writer lays out. *)
From Coq Require Import ZifyNat.
From Verif Require Import Util RangeMap_model SampleTab_model SampleTab_proofs TimeTab_model Double_model Box_model Box_proofs Frag_model Frag_proofs Frag_proofs2 Level_model Movie_model.
Local Open Scope Z_scope.
Local Ltac Zify.zify_post_hook ::= Z.div_mod_to_equations.
Opaque be.

(** ** Words *)
Definition word (z : Z) : Prop := 0 <= z < 2 ^ 32.
Lemma u32_word : forall z, word (u32 z). Proof. intros. unfold word, u32. apply Z.mod_pos_bound. reflexivity. Qed.
Lemma words_cons : forall w ws, words (w :: ws) = be32 w ++ words ws. Proof. reflexivity. Qed.
Lemma words_app : forall a b, words (a ++ b) = words a ++ words b. Proof. intros. unfold words. rewrite map_app, concat_app. reflexivity. Qed.
Lemma words_zlen : forall ws, zlen (words ws) = 4 * Z.of_nat (length ws).
Proof. induction ws as [|w ws IH]; [reflexivity|]. rewrite words_cons, zlen_app', be32_zlen, IH. cbn [length]. lia. Qed.
Lemma group_app4 : forall a rest, length a = 4%nat -> group (a ++ rest) = be_val 0 a :: group rest.
Proof. intros [|a [|b [|c [|d [|? ?]]]]] rest L; try discriminate L. reflexivity. Qed.
Lemma group_words : forall ws rest, Forall word ws -> group (words ws ++ rest) = ws ++ group rest.
Proof.
  induction ws as [|w ws IH]; intros rest F; [reflexivity|]. rewrite words_cons, <- app_assoc. rewrite group_app4 by apply be32_length. rewrite be32_val by exact (Forall_inv F). rewrite IH by exact (Forall_inv_tail F). reflexivity.
Qed.
(** a parser that looks no further than it reads *)
Definition steady {A} (parse : list Z -> option (A * list Z)) : Prop := forall ws x rest r, parse ws = Some (x, rest) -> parse (ws ++ r) = Some (x, rest ++ r).
Lemma reads_words : forall {A} (parse : list Z -> option (A * list Z)) ws x, steady parse -> parse ws = Some (x, []) -> Forall word ws -> Reads (rwords parse) (words ws) x.
Proof.
  intros A parse ws x St P F pre post. unfold rwords. assert (E : skipn (Z.to_nat (zlen pre)) (pre ++ words ws ++ post) = words ws ++ post) by (unfold zlen; rewrite Nat2Z.id, skipn_app, skipn_all, Nat.sub_diag; reflexivity).
  rewrite E, group_words by exact F. cbv zeta. rewrite (St _ _ _ _ P). cbn [app]. rewrite app_length. rewrite words_zlen. do 2 f_equal. lia.
Qed.
Lemma steady_take : forall n, steady (take n).
Proof.
  intros n ws x rest r H. unfold take in *. rewrite app_length. destruct (Z.ltb_spec (Z.of_nat (length ws)) n) as [Q|Q]; [discriminate|]. injection H as <- <-.
  destruct (Z.ltb_spec (Z.of_nat (length ws + length r)) n); [lia|]. rewrite firstn_app, skipn_app. replace (Z.to_nat n - length ws)%nat with O by lia. rewrite firstn_O, skipn_O, app_nil_r. reflexivity.
Qed.
Lemma steady_stts_read : forall n s d times t ws x rest r, stts_read n s d times t ws = Some (x, rest) -> stts_read n s d times t (ws ++ r) = Some (x, rest ++ r).
Proof.
  induction n as [|n IH]; intros s d times t ws [a b] rest r H; cbn [stts_read] in *; [injection H as <- <- <-; reflexivity|]. destruct ws as [|x1 [|x2 ws]]; try discriminate. cbn [app]. apply IH. exact H.
Qed.
Lemma steady_stts : steady parse_stts.
Proof. intros [|a [|n ws]] x rest r H; try discriminate. cbn [app parse_stts] in *. apply steady_stts_read. exact H. Qed.
Lemma steady_ctts_read : forall n num times ord ws x rest r, ctts_read n num times ord ws = Some (x, rest) -> ctts_read n num times ord (ws ++ r) = Some (x, rest ++ r).
Proof.
  induction n as [|n IH]; intros num times ord ws [a b] rest r H; cbn [ctts_read] in *; [injection H as <- <- <-; reflexivity|]. destruct ws as [|x1 [|x2 ws]]; try discriminate. cbn [app].
  destruct (ctts_run (Z.to_nat x1) x2 num times ord) as [[[[o num'] times'] ord']|]; [|discriminate]. destruct (ctts_read n num' times' ord' ws) as [[[o' ord''] ws']|] eqn:E; [|discriminate]. rewrite (IH _ _ _ _ _ _ r E). injection H as <- <- <-. reflexivity.
Qed.
Lemma steady_ctts : forall times, steady (parse_ctts times).
Proof. intros times [|a [|n ws]] x rest r H; try discriminate. cbn [app parse_ctts] in *. apply steady_ctts_read. exact H. Qed.
Lemma steady_stss : steady parse_stss.
Proof. intros [|a [|n ws]] x rest r H; try discriminate. cbn [app parse_stss] in *. destruct (take n ws) as [[ks ws']|] eqn:E; [|discriminate]. rewrite (steady_take _ _ _ _ r E). injection H as <- <-. reflexivity. Qed.
Lemma steady_stco : steady parse_stco.
Proof. intros [|a [|n ws]] x rest r H; try discriminate. cbn [app parse_stco] in *. apply steady_take. exact H. Qed.
Lemma steady_stsz : steady parse_stsz.
Proof.
  intros [|a [|sz [|n ws]]] x rest r H; try discriminate. cbn [app parse_stsz] in *. destruct (sz =? 0); [|injection H as <- <-; reflexivity]. destruct (take n ws) as [[ks ws']|] eqn:E; [|discriminate]. rewrite (steady_take _ _ _ _ r E). injection H as <- <-. reflexivity.
Qed.
Lemma steady_stsc_read : forall n i fc spc sdi s t ws x rest r, stsc_read n i fc spc sdi s t ws = Some (x, rest) -> stsc_read n i fc spc sdi s t (ws ++ r) = Some (x, rest ++ r).
Proof.
  induction n as [|n IH]; intros i fc spc sdi s t ws [a b] rest r H; cbn [stsc_read] in *; [injection H as <- <- <-; reflexivity|]. destruct ws as [|x1 [|x2 [|x3 ws]]]; try discriminate. cbn [app]. apply IH. exact H.
Qed.
Lemma steady_stsc : steady parse_stsc.
Proof.
  intros [|a [|n ws]] x rest r H; try discriminate. cbn [app parse_stsc] in *. destruct (stsc_read (Z.to_nat n) 0 0 0 0 0 [] ws) as [[[t ch] ws']|] eqn:E; [|discriminate]. rewrite (steady_stsc_read _ _ _ _ _ _ _ _ _ _ r E). injection H as <- <-. reflexivity.
Qed.
(** the tables written are words *)
Lemma fullbox_words : forall ty b, word ty -> Forall word b -> Forall word (fullbox ty b).
Proof. intros ty b H F. unfold fullbox. constructor; [apply u32_word|]. constructor; [exact H|]. constructor; [unfold word; lia|exact F]. Qed.
Lemma stts_loop_words : forall scale unscale ds i last delta count, word delta -> let '(ws, _, d, _) := stts_loop scale unscale i ds last delta count in Forall word ws /\ word d.
Proof.
  intros scale unscale. induction ds as [|d ds IH]; intros i last delta count H; [split; [constructor|exact H]|]. cbn [stts_loop].
  set (cur := scale (u64 (d - last))). set (l2 := u64 (last + unscale cur)). assert (D : word (if i =? 1 then u32 cur else delta)) by (destruct (i =? 1); [apply u32_word|exact H]).
  destruct (negb (cur =? (if i =? 1 then u32 cur else delta)) && (0 <? i)).
  - specialize (IH (i + 1) l2 (u32 cur) 1 (u32_word cur)). destruct (stts_loop scale unscale (i + 1) ds l2 (u32 cur) 1) as [[[ws n] d'] c']. destruct IH as [A B]. split; [|exact B]. constructor; [apply u32_word|]. constructor; [exact D|exact A].
  - apply IH. exact D.
Qed.
Lemma stts_words : forall scale unscale b ds, Forall word (write_stts scale unscale b ds).
Proof.
  intros. unfold write_stts. pose proof (stts_loop_words scale unscale ds 0 0 0 0 ltac:(unfold word; lia)) as H. destruct (stts_loop scale unscale 0 ds 0 0 0) as [[[ws n] d] c]. destruct H as [A B].
  destruct ((0 <? length ds)%nat || negb b); (apply fullbox_words; [unfold word, box_stts; lia|]); (constructor; [apply u32_word|]); [|exact A]. apply Forall_app. split; [exact A|]. constructor; [apply u32_word|]. constructor; [exact B|constructor].
Qed.
Lemma ctts_loop_words : forall scale off l i delta count, word delta -> let '(ws, _, d, _) := ctts_loop scale off i l delta count in Forall word ws /\ word d.
Proof.
  intros scale off. induction l as [|[c d] l IH]; intros i delta count H; [split; [constructor|exact H]|]. cbn [ctts_loop].
  set (cur := scale (u64 (c - d + off))). assert (D : word (if i =? 0 then u32 cur else delta)) by (destruct (i =? 0); [apply u32_word|exact H]).
  destruct (negb (cur =? (if i =? 0 then u32 cur else delta))).
  - specialize (IH (i + 1) (u32 cur) 1 (u32_word cur)). destruct (ctts_loop scale off (i + 1) l (u32 cur) 1) as [[[ws n] d'] c']. destruct IH as [A B]. split; [|exact B]. constructor; [apply u32_word|]. constructor; [exact D|exact A].
  - apply IH. exact D.
Qed.
Lemma ctts_words : forall scale has off l, Forall word (write_ctts scale has off l).
Proof.
  intros. unfold write_ctts. destruct (negb has && (off =? 0)); [constructor|]. pose proof (ctts_loop_words scale off l 0 0 0 ltac:(unfold word; lia)) as H. destruct (ctts_loop scale off 0 l 0 0) as [[[ws n] d] c]. destruct H as [A B].
  apply fullbox_words; [unfold word, box_ctts; lia|]. constructor; [apply u32_word|]. apply Forall_app. split; [exact A|]. constructor; [apply u32_word|]. constructor; [exact B|constructor].
Qed.
Lemma stss_words : forall ks, Forall word (write_stss ks).
Proof.
  intros [|k ks]; [constructor|]. unfold write_stss. apply fullbox_words; [unfold word, box_stss; lia|]. constructor; [apply u32_word|]. apply Forall_map, Forall_forall. intros; apply u32_word.
Qed.
Lemma stsz_words : forall w, Forall word (write_stsz w).
Proof.
  intros w. unfold write_stsz. apply fullbox_words; [unfold word, box_stsz; lia|]. constructor; [unfold word; lia|]. constructor; [apply u32_word|]. destruct (w_has_size w); [|constructor]. apply Forall_map, Forall_forall. intros; apply u32_word.
Qed.
Lemma stsc_loop_words : forall cs i start count, word start -> word count -> let '(ws, _, s, c) := stsc_loop i cs start count in Forall word ws /\ word s /\ word c.
Proof.
  induction cs as [|c cs IH]; intros i start count H1 H2; [split; [constructor|split; assumption]|]. cbn [stsc_loop].
  assert (D1 : word (if i =? 0 then i + 1 else start)) by (destruct (Z.eqb_spec i 0) as [->|]; [unfold word; lia|exact H1]). assert (D2 : word (if i =? 0 then u32 c else count)) by (destruct (i =? 0); [apply u32_word|exact H2]).
  destruct (c =? (if i =? 0 then u32 c else count)); [apply IH; assumption|].
  specialize (IH (i + 1) (u32 (i + 1)) (u32 c) (u32_word _) (u32_word _)). destruct (stsc_loop (i + 1) cs (u32 (i + 1)) (u32 c)) as [[[ws n] s'] c']. destruct IH as [A B]. split; [|exact B]. constructor; [exact D1|]. constructor; [exact D2|]. constructor; [unfold word; lia|exact A].
Qed.
Lemma stsc_words : forall b cs ws, write_stsc b cs = Some ws -> Forall word ws /\ exists body, ws = fullbox box_stsc body.
Proof.
  intros b cs ws H. assert (T : word box_stsc) by (unfold word, box_stsc; lia). unfold write_stsc in H. destruct cs as [|c cs].
  - destruct b; [|discriminate]. injection H as <-. split; [|eexists; reflexivity]. apply fullbox_words; [exact T|]. constructor; [unfold word; lia|constructor].
  - set (l := removelast (c :: cs)) in *. pose proof (stsc_loop_words l 0 0 0 ltac:(unfold word; lia) ltac:(unfold word; lia)) as P. destruct (stsc_loop 0 l 0 0) as [[[w n] s] k]. destruct P as (A & B & C).
    destruct (1 <? length (c :: cs))%nat; injection H as <-; (split; [|eexists; reflexivity]); (apply fullbox_words; [exact T|]); (constructor; [apply u32_word|]); rewrite ?Forall_app; repeat split; try exact A;
      (constructor; [first [exact B|apply u32_word]|]); (constructor; [first [exact C|apply u32_word]|]); (constructor; [unfold word; lia|constructor]).
Qed.
