(** Lemmas on the HLS presentation: declared streams; encryption. *)
From Coq Require Import String ZifyNat Permutation.
From Verif Require Import Util Dec_spec Dec_lemmas Str_model Str_proofs Mpd_model Mpd_proofs Points_model Points_proofs Points_proofs2 Hls_model Hls_proofs HlsCrypt_model HlsCrypt_proofs HlsCrypt_props Pres_model Pres_proofs Pres_proofs2 Pres_proofs3 Pres_proofs4 Pres_proofs5 HlsPres_model HlsPres_proofs HlsPres_proofs2.
Local Open Scope Z_scope.
Local Ltac Zify.zify_post_hook ::= Z.div_mod_to_equations.

(** * audio streams come first *)
Definition begins (c : Z) (s : strm) : Prop := exists r, n_name s = c :: r.
Lemma insert_audio s A V : begins 97 s -> Forall (begins 118) V -> insert_strm s (A ++ V) = insert_strm s A ++ V.
Proof.
  intros (r & E) F. induction A as [|a A IH].
  - cbn [app insert_strm]. destruct V as [|v V]; [reflexivity|]. cbn [insert_strm]. destruct (Forall_inv F) as (q & Q). rewrite E, Q. reflexivity.
  - cbn [app insert_strm]. destruct (name_ltb (n_name s) (n_name a)); [reflexivity|]. destruct (name_ltb (n_name a) (n_name s)); [rewrite IH; reflexivity|reflexivity].
Qed.
Lemma insert_video s A V : begins 118 s -> Forall (begins 97) A -> insert_strm s (A ++ V) = A ++ insert_strm s V.
Proof.
  intros (r & E) F. induction F as [|a A (q & Q) F IH]; [reflexivity|]. cbn [app insert_strm]. rewrite E, Q. cbn [name_ltb]. change (118 =? 97) with false. change (97 =? 118) with false. change (118 <? 97) with false. change (97 <? 118) with true. cbv iota. rewrite IH. reflexivity.
Qed.
Lemma insert_in s p x : In x (insert_strm s p) -> x = s \/ In x p.
Proof.
  induction p as [|y p IH]; cbn [insert_strm]; [intros [<-|[]]; left; reflexivity|]. destruct (name_ltb (n_name s) (n_name y)); [intros [<-|I]; [left; reflexivity|right; exact I]|]. destruct (name_ltb (n_name y) (n_name s)); [|intros I; right; exact I].
  intros [<-|I]; [right; left; reflexivity|]. destruct (IH I) as [->|J]; [left; reflexivity|right; right; exact J].
Qed.
Definition parted (p : pres) : Prop := exists A V, p = A ++ V /\ Forall (fun s => n_audio s = true /\ begins 97 s) A /\ Forall (fun s => n_audio s = false /\ begins 118 s) V.
Lemma declare_parted p s : parted p -> parted (declare p s).
Proof.
  intros (A & V & -> & FA & FV). unfold declare. set (name := if 0 <? _ then _ else _). set (s' := mkStrm name _ _ _ _ _).
  assert (FA1 : Forall (begins 97) A) by (eapply Forall_impl; [|exact FA]; intros x X; apply X). assert (FV1 : Forall (begins 118) V) by (eapply Forall_impl; [|exact FV]; intros x X; apply X).
  rewrite Forall_forall in FA, FV. destruct (n_audio s) eqn:Ea.
  - assert (B : begins 97 s') by (unfold begins, s', name; cbn [n_name]; destruct (0 <? _); eexists; reflexivity). exists (insert_strm s' A), V. split; [apply insert_audio; assumption|]. split; [|apply Forall_forall; exact FV]. apply Forall_forall. intros x X. apply insert_in in X. destruct X as [->|X]; [split; [reflexivity|exact B]|apply FA; exact X].
  - assert (B : begins 118 s') by (unfold begins, s', name; cbn [n_name]; destruct (0 <? _); eexists; reflexivity). exists A, (insert_strm s' V). split; [apply insert_video; assumption|]. split; [apply Forall_forall; exact FA|]. apply Forall_forall. intros x X. apply insert_in in X. destruct X as [->|X]; [split; [reflexivity|exact B]|apply FV; exact X].
Qed.
Lemma declared_parted l : forall p, parted p -> parted (fold_left declare l p).
Proof. induction l as [|s l IH]; intros p P; [exact P|]. cbn [fold_left]. apply IH. apply declare_parted. exact P. Qed.
Lemma kinds_same l a : Permutation (map content (declare_all l)) (map content l) -> kind_count a (declare_all l) = kind_count a l.
Proof.
  assert (K : forall p, kind_count a p = zlen (filter (fun x => Bool.eqb x a) (map n_audio p))).
  { intros p. unfold kind_count, zlen. f_equal. induction p as [|s p IH]; [reflexivity|]. cbn [filter map]. destruct (Bool.eqb (n_audio s) a); cbn [length]; congruence. }
  intros P. rewrite !K. pose proof (Permutation_map (fun c => let '(x, _, _, _, _) := c in x) P) as Q. rewrite !map_map in Q. change (Permutation (map n_audio (declare_all l)) (map n_audio l)) in Q.
  assert (Y : forall u v : list bool, Permutation u v -> length (filter (fun x => Bool.eqb x a) u) = length (filter (fun x => Bool.eqb x a) v)).
  { intros u v W. induction W as [|x u v W IH|x y u|u v w W1 IH1 W2 IH2]; cbn [filter]; [reflexivity| | |congruence]; repeat (destruct (Bool.eqb _ a)); cbn [length]; congruence. }
  unfold zlen. rewrite (Y _ _ Q). reflexivity.
Qed.
Lemma declared_one_video l s : filter (fun x => negb (n_audio x)) l = [s] -> exists A s', declare_all l = A ++ [s'] /\ Forall (fun x => n_audio x = true) A /\ n_audio s' = false /\ n_name s' = str "video".
Proof.
  intros O. destruct (declared_ok l) as (P & _ & _). destruct (declare_fold l []) as (q & _ & _ & (_ & NB)); [split; [constructor|intros x []]|]. fold (declare_all l) in NB.
  destruct (declared_parted l []) as (A & V & E & FA & FV); [exists [], []; split; [reflexivity|split; constructor]|]. fold (declare_all l) in E.
  assert (K : kind_count false (declare_all l) = 1).
  { rewrite (kinds_same l false P). unfold kind_count. assert (X : filter (fun s => Bool.eqb (n_audio s) false) l = filter (fun x => negb (n_audio x)) l) by (apply filter_ext; intros x; destruct (n_audio x); reflexivity). rewrite X, O. reflexivity. }
  assert (KV : kind_count false (declare_all l) = zlen V).
  { rewrite E. unfold kind_count. rewrite filter_app. clear - FA FV. assert (X1 : filter (fun s => Bool.eqb (n_audio s) false) A = []) by (apply filter_none; eapply Forall_impl; [|exact FA]; intros x (X & _); rewrite X; reflexivity).
    assert (X2 : filter (fun s => Bool.eqb (n_audio s) false) V = V) by (induction FV as [|x V (X & _) F IH]; [reflexivity|cbn [filter]; rewrite X; cbn [Bool.eqb]; rewrite IH; reflexivity]). rewrite X1, X2. reflexivity. }
  destruct V as [|s' [|s2 V]]; unfold zlen in KV; cbn [length] in KV; try lia. exists A, s'. split; [exact E|]. split; [eapply Forall_impl; [|exact FA]; intros x X; apply X|]. destruct (Forall_inv FV) as (Ev & _). split; [exact Ev|].
  destruct (NB s') as (i & Hi & En); [rewrite E; apply in_or_app; right; left; reflexivity|]. rewrite Ev, K in Hi. assert (i = 0) by lia. subst i. rewrite En, Ev. reflexivity.
Qed.
Lemma audio_reps_same l A s' : Permutation (map content (declare_all l)) (map content l) -> declare_all l = A ++ [s'] -> n_audio s' = false -> forall x, In x A -> exists y, In y l /\ content y = content x.
Proof. intros P E V x X. assert (I : In (content x) (map content l)) by (apply (Permutation_in _ P); apply in_map; rewrite E; apply in_or_app; left; exact X). apply in_map_iff in I. destruct I as (y & Q & I). exists y. split; assumption. Qed.

(** * encryption *)
Lemma xor_inj a b c : length a = length c -> length b = length c -> xor_bytes a c = xor_bytes b c -> a = b.
Proof.
  revert b c. induction a as [|x a IH]; intros [|y b] [|z c] A B E; cbn [length] in *; try lia; [reflexivity|]. cbn [xor_bytes] in E. assert (Q : Z.lxor x z = Z.lxor y z) by congruence. assert (Q2 : xor_bytes a c = xor_bytes b c) by congruence.
  rewrite (IH b c ltac:(lia) ltac:(lia) Q2). f_equal. rewrite <- (Z.lxor_0_r x), <- (Z.lxor_0_r y), <- (Z.lxor_nilpotent z), <- !Z.lxor_assoc, Q. reflexivity.
Qed.
Lemma be_length n : forall x, length (be_bytes n x) = n.
Proof. induction n as [|n IH]; intros x; [reflexivity|]. cbn [be_bytes]. rewrite app_length, IH. cbn [length]. lia. Qed.
Lemma encrypt_is E D clear seq : block_cipher E D -> bytes clear -> 0 < zlen clear < 2 ^ 32 ->
  encrypt_segment E clear seq = Some (fst (cbc_encrypt E (Z.to_nat (zlen clear / 16) + 1) (iv_of seq) (clear ++ repeat (enc_missing (zlen clear)) (Z.to_nat (enc_missing (zlen clear)))))).
Proof.
  intros B Bc S. set (s := zlen clear) in *. assert (En : enc_size s = s / 16 * 16 + 16) by (unfold enc_size, enc_missing; lia).
  set (fb := s / 16 * 16) in *. set (pad := repeat (enc_missing s) (Z.to_nat (enc_missing s))). set (last := skipn (Z.to_nat fb) clear ++ pad).
  set (r1 := cbc_encrypt E (Z.to_nat (fb mod 2 ^ 32 / 16)) (iv_of seq) clear).
  assert (NB : Z.to_nat (fb mod 2 ^ 32 / 16) = Z.to_nat (s / 16)) by (unfold fb; lia).
  assert (Lc : length clear = Z.to_nat s) by (unfold s, zlen; lia).
  assert (M : 1 <= enc_missing s <= 16) by (unfold enc_missing; lia).
  set (n1 := Z.to_nat (s / 16)) in *. set (d1 := firstn (16 * n1) clear).
  assert (Ld1 : length d1 = (16 * n1)%nat) by (unfold d1; rewrite firstn_length; lia).
  assert (Ec : clear = d1 ++ skipn (Z.to_nat fb) clear) by (unfold d1; replace (Z.to_nat fb) with (16 * n1)%nat by lia; symmetry; apply firstn_skipn).
  assert (R1 : r1 = cbc_encrypt E n1 (iv_of seq) d1) by (unfold r1; rewrite NB; rewrite Ec at 1; apply cbc_prefix; lia).
  pose proof (cbc_len E D B n1 (iv_of seq) d1 (iv_block seq) (bytes_firstn' _ _ Bc) ltac:(lia)) as (La & Ba & Ia). rewrite <- R1 in La, Ba, Ia.
  assert (Ll : length last = 16%nat) by (unfold last, pad; rewrite app_length, skipn_length, repeat_length; unfold fb, enc_missing in *; lia).
  assert (Bl : bytes last).
  { unfold last, pad. apply bytes_app. split; [apply bytes_skipn'; exact Bc|]. apply Forall_forall. intros x Hx. apply repeat_spec in Hx. unfold is_byte. lia. }
  set (r2 := cbc_encrypt E 1 (snd r1) last).
  pose proof (cbc_len E D B 1 (snd r1) last Ia Bl ltac:(lia)) as (Lb & Bb & _). fold r2 in Lb, Bb.
  assert (Lfb : zlen (fst r1) = fb) by (unfold zlen; lia).
  set (dest := repeat 0 (Z.to_nat (enc_size s))). assert (Ldest : length dest = Z.to_nat (enc_size s)) by (unfold dest; apply repeat_length).
  assert (Q : hls3_encrypt E dest (enc_size s) clear seq = Encrypted (store (store dest 0 (fst r1)) fb (fst r2)) (enc_size s)).
  { unfold hls3_encrypt. fold s. replace (s =? 0) with false by lia. replace (enc_size s =? 0) with false by lia. replace (enc_size s <? enc_size s) with false by lia.
    fold fb. fold pad. fold last. fold r1. destruct r1 as (a & iv) eqn:X1. cbn [fst snd] in *. fold r2. destruct r2 as (b & iv2). reflexivity. }
  unfold encrypt_segment. fold s. fold dest. rewrite Q. f_equal. rewrite <- Lfb. rewrite store_end by lia.
  assert (L2 : length (fst r1 ++ fst r2) = Z.to_nat (enc_size s)) by (rewrite app_length, La, Lb; lia).
  rewrite firstn_app, L2, Nat.sub_diag, firstn_O, app_nil_r. rewrite <- L2, firstn_all.
  rewrite Ec at 1. rewrite <- app_assoc. fold last. rewrite cbc_app by exact Ld1. rewrite <- R1. reflexivity.
Qed.
(** decrypted with another iv: only the first block differs *)
Lemma decrypted_with E D clear seq iv : block_cipher E D -> bytes clear -> 16 <= zlen clear < 2 ^ 32 -> length iv = 16%nat ->
  exists data, encrypt_segment E clear seq = Some data /\ unpad (cbc_decrypt D (length data / 16) iv data) = Some (xor_bytes iv (xor_bytes (iv_of seq) (firstn 16 clear)) ++ skipn 16 clear).
Proof.
  intros B Bc Sz Liv. eexists. split; [apply (encrypt_is E D); [exact B|exact Bc|lia]|].
  set (s := zlen clear) in *. set (pad := repeat (enc_missing s) (Z.to_nat (enc_missing s))). assert (M : 1 <= enc_missing s <= 16) by (unfold enc_missing; lia).
  assert (Lc : length clear = Z.to_nat s) by (unfold s, zlen; lia). assert (Lp : length pad = Z.to_nat (enc_missing s)) by apply repeat_length.
  assert (Bp : bytes pad) by (apply Forall_forall; intros x Hx; apply repeat_spec in Hx; unfold is_byte; lia).
  assert (Bd : bytes (clear ++ pad)) by (apply bytes_app; split; assumption).
  set (m := Z.to_nat (s / 16)). assert (Ld : length (clear ++ pad) = (16 * (m + 1))%nat) by (rewrite app_length, Lc, Lp; unfold m, enc_missing; lia). assert (M1 : (1 <= m)%nat) by (unfold m; lia).
  pose proof (cbc_len E D B (m + 1) (iv_of seq) (clear ++ pad) (iv_block seq) Bd ltac:(lia)) as (Lo & _ & _). rewrite Lo. replace (16 * (m + 1) / 16)%nat with (S m) by lia. replace (m + 1)%nat with (S m) by lia.
  cbn [cbc_encrypt]. set (d0 := firstn 16 (clear ++ pad)). assert (D0 : is_block d0) by (unfold d0; split; [rewrite firstn_length; lia|apply bytes_firstn'; exact Bd]).
  pose proof (xor_block _ _ (iv_block seq) D0) as X0. destruct (B _ X0) as (Cb & Dc). set (c := E (xor_bytes (iv_of seq) d0)) in *. destruct (cbc_encrypt E m c (skipn 16 (clear ++ pad))) as [r iv'] eqn:Er. cbn [fst].
  destruct Cb as (Lcb & Bcb). cbn [cbc_decrypt]. rewrite firstn_app, Lcb, Nat.sub_diag, firstn_O, app_nil_r. rewrite firstn_all2 by lia. rewrite skipn_app, Lcb, Nat.sub_diag. rewrite skipn_all2 by lia. cbn [app skipn]. rewrite Dc.
  assert (Rr : cbc_decrypt D m c r = skipn 16 (clear ++ pad)).
  { replace r with (fst (cbc_encrypt E m c (skipn 16 (clear ++ pad)))) by (rewrite Er; reflexivity). apply (cbc_round E D B); [split; assumption|apply bytes_skipn'; exact Bd|rewrite skipn_length; lia]. }
  rewrite Rr. rewrite skipn_app. replace (16 - length clear)%nat with 0%nat by lia. cbn [skipn]. rewrite app_assoc. unfold pad. rewrite unpad_pad by exact M.
  f_equal. f_equal. unfold d0. rewrite firstn_app. replace (16 - length clear)%nat with 0%nat by lia. rewrite firstn_O, app_nil_r. reflexivity.
Qed.
