From Coq Require Import ZifyNat Permutation.
From Verif Require Import Util Bits_spec Bits_lemmas Bitstream_model Bitstream_proofs Bitstream_proofs2 Bitstream_proofs3.
From Verif Require CBuffer_model CBuffer_proofs.
From Verif Require Import Store_model.
Local Ltac Zify.zify_post_hook ::= Z.div_mod_to_equations.

(** ** overwriting *)
Lemma over_nil {A} (l : list A) q : over l q [] = l.
Proof. unfold over. cbn [app length]. rewrite Nat.add_0_r. apply firstn_skipn. Qed.
Lemma over_length {A} (l : list A) q d : (q <= length l)%nat -> length (over l q d) = Nat.max (length l) (q + length d).
Proof. intros H. unfold over. rewrite !app_length, firstn_length, skipn_length. lia. Qed.
Lemma firstn_over {A} (l : list A) q d : (q <= length l)%nat -> firstn (q + length d) (over l q d) = firstn q l ++ d.
Proof.
  intros H. unfold over. rewrite app_assoc, firstn_app. rewrite app_length, firstn_length.
  replace (q + length d - (Nat.min q (length l) + length d))%nat with 0%nat by lia. cbn [firstn]. rewrite app_nil_r.
  apply firstn_all2. rewrite app_length, firstn_length. lia.
Qed.
Lemma skipn_over {A} (l : list A) q d m : (q <= length l)%nat -> skipn (q + length d + m) (over l q d) = skipn (q + length d + m) l.
Proof.
  intros H. unfold over. rewrite app_assoc, skipn_app. rewrite app_length, firstn_length.
  rewrite skipn_all2 by (rewrite app_length, firstn_length; lia). cbn [app].
  replace (q + length d + m - (Nat.min q (length l) + length d))%nat with m by lia.
  rewrite skipn_skipn. f_equal. lia.
Qed.
Lemma over_over {A} (l : list A) q a b : (q <= length l)%nat -> over (over l q a) (q + length a) b = over l q (a ++ b).
Proof.
  intros H. unfold over at 1. rewrite firstn_over, skipn_over by exact H. unfold over. rewrite <- !app_assoc, app_length.
  rewrite Nat.add_assoc. reflexivity.
Qed.
Lemma over_bytes C sp d : (sp <= length C)%nat -> bytes_bits (over C sp d) = over (bytes_bits C) (8 * sp) (bytes_bits d).
Proof.
  intros H. unfold over. rewrite !bytes_bits_app, <- firstn_bytes_bits, <- skipn_bytes_bits, bytes_bits_length.
  do 3 f_equal. lia.
Qed.
Lemma bytes_over C sp d : bytes C -> bytes d -> bytes (over C sp d).
Proof.
  intros H1 H2. unfold over, bytes. apply Forall_app. unfold bytes in *.
  split; [|apply Forall_app; split; [exact H2|]].
  - rewrite <- (firstn_skipn sp C) in H1. apply Forall_app in H1. apply H1.
  - rewrite <- (firstn_skipn (sp + length d) C) in H1. apply Forall_app in H1. apply H1.
Qed.

(** ** the storage as a byte string with a position *)
Definition acall (c : scall) (s : list Z * nat) : list Z * nat :=
  match c with
  | SWrite d => (over (fst s) (snd s) d, snd s + length d)%nat
  | SSeek p => (fst s, p)
  end.
Definition arun (calls : list scall) (s : list Z * nat) := fold_left (fun s c => acall c s) calls s.
Fixpoint asafe (calls : list scall) (s : list Z * nat) : Prop :=
  match calls with
  | [] => True
  | c :: calls' => match c with SSeek p => (p <= length (fst s))%nat | _ => True end /\ asafe calls' (acall c s)
  end.
Lemma arun_app a b s : arun (a ++ b) s = arun b (arun a s).
Proof. apply fold_left_app. Qed.
Lemma asafe_app a : forall b s, asafe a s -> asafe b (arun a s) -> asafe (a ++ b) s.
Proof. induction a as [|c a IH]; intros b s H1 H2; [exact H2|]. cbn [app asafe] in *. split; [apply H1|]. apply IH; [apply H1|exact H2]. Qed.

Section W.
Variable P : nat. Variable tail : list Z.
Hypothesis HP : (5 <= P)%nat.
Hypothesis Htail : bytes tail.

Lemma WInv_rest L w : WInv P tail L w ->
  exists rest, L = bytes_bits (wout w) ++ rest /\ length rest = wcur w /\ WInv P tail rest (drained w) /\ bytes (wout w).
Proof.
  intros (A & B & C & D & E & G & H). exists (firstn (wcur w) (bytes_bits (wbuf w))).
  split; [symmetry; exact H|]. split; [rewrite firstn_length, bytes_bits_length, A; lia|].
  split; [|exact D]. unfold WInv. cbn [drained wbuf wtail wcur wout]. do 3 (split; [assumption|]). split; [constructor|]. split; [assumption|]. split; [exact G|reflexivity].
Qed.

Lemma drain_run w C sp : (sp <= length C)%nat ->
  arun (drain w) (C, sp) = (over C sp (wout w), sp + length (wout w))%nat /\ asafe (drain w) (C, sp).
Proof.
  intros H. unfold drain. destruct (wout w) as [|x d] eqn:E.
  - cbn. rewrite Nat.add_0_r, over_nil. split; [reflexivity|exact I].
  - cbn [arun fold_left acall fst snd asafe]. split; [reflexivity|split; exact I].
Qed.

Record Inv (w : wst) (tot : nat) (C : list Z) (sp : nat) (bits : list bool) (q : nat) (L : list bool) : Prop := {
  iv_w : WInv P tail L w; iv_out : wout w = []; iv_tot : tot = q; iv_q : q = (8 * sp + length L)%nat;
  iv_sp : (sp <= length C)%nat; iv_bits : bits = over (bytes_bits C) (8 * sp) L; iv_bytes : bytes C }.

Lemma Inv_wcur w tot C sp bits q L : Inv w tot C sp bits q L -> length L = wcur w.
Proof.
  intros [(A & B & _ & D & E & G & H) O _ _ _ _ _]. rewrite <- H, O. cbn [bytes_bits flat_map app].
  rewrite firstn_length, bytes_bits_length, A. lia.
Qed.

(** after a page operation [w -> w'] that adds the bits [new] *)
Lemma Inv_step w tot C sp bits q L w' new : Inv w tot C sp bits q L -> WInv P tail (L ++ new) w' ->
  exists C' sp' rest, arun (drain w') (C, sp) = (C', sp') /\ asafe (drain w') (C, sp) /\
    Inv (drained w') (tot + length new)%nat C' sp' (over bits q new) (q + length new)%nat rest /\ length rest = wcur w'.
Proof.
  intros [Iw Io It Iq Is Ib Iy] W'. destruct (WInv_rest _ _ W') as (rest & EL & Lr & Wr & By).
  destruct (drain_run w' C sp Is) as [R S0]. exists (over C sp (wout w')), (sp + length (wout w'))%nat, rest.
  split; [exact R|]. split; [exact S0|]. split; [|exact Lr].
  assert (LL : (length L + length new = 8 * length (wout w') + length rest)%nat).
  { rewrite <- app_length, EL, app_length, bytes_bits_length. reflexivity. }
  split.
  - exact Wr.
  - reflexivity.
  - lia.
  - lia.
  - rewrite over_length by exact Is. lia.
  - rewrite over_bytes by exact Is. rewrite Ib, Iq.
    rewrite over_over by (rewrite bytes_bits_length; lia). rewrite EL.
    replace (8 * (sp + length (wout w')))%nat with (8 * sp + length (bytes_bits (wout w')))%nat by (rewrite bytes_bits_length; lia).
    rewrite over_over by (rewrite bytes_bits_length; lia). reflexivity.
  - apply bytes_over; assumption.
Qed.

Lemma WInv_flush_all L w : WInv P tail L w -> WInv P tail L (flush w) /\ (wcur (flush w) < 8)%nat.
Proof.
  intros H. unfold flush. destruct (Nat.ltb_spec 7 (wcur w)) as [Q|Q].
  - exact (WInv_flush_buf P tail HP L w H).
  - split; [exact H|lia].
Qed.

(** flush from a byte boundary: the storage holds everything *)
Lemma Inv_flush w tot C sp bits q L : Inv w tot C sp bits q L ->
  exists C' sp' rest, arun (drain (flush w)) (C, sp) = (C', sp') /\ asafe (drain (flush w)) (C, sp) /\
    Inv (drained (flush w)) tot C' sp' bits q rest /\ ((q mod 8 = 0)%nat -> rest = []).
Proof.
  intros H. destruct (WInv_flush_all L w (iv_w _ _ _ _ _ _ _ H)) as [F1 F2].
  rewrite <- (app_nil_r L) in F1.
  destruct (Inv_step w tot C sp bits q L (flush w) [] H F1) as (C' & sp' & rest & R & S0 & I' & Lr).
  exists C', sp', rest. split; [exact R|]. split; [exact S0|].
  cbn [length] in I'. rewrite !Nat.add_0_r in I'. rewrite over_nil in I'. split; [exact I'|].
  intros A. pose proof (iv_q _ _ _ _ _ _ _ I') as Q. destruct rest; [reflexivity|]. cbn [length] in *. lia.
Qed.

Lemma wok_flush_last size q o ops : wok size q (o :: ops) ->
  (o = WFlush /\ ops = [] /\ (q mod 8 = 0)%nat) \/
  (match o with
    | Put _ n => (1 <= n <= 32)%nat
    | Bytes d => bytes d /\ (q mod 8 = 0)%nat
    | WSeek p => (q mod 8 = 0 /\ 8 * p <= size)%nat
    | _ => True
    end /\ wok (Nat.max size (q + length (wdata o))) (wmoved q o) ops).
Proof.
  intros H. destruct o; try (right; exact H). destruct ops as [|o2 ops]; [|right; exact H].
  left. auto.
Qed.

Lemma wrun_ok ops : forall w tot C sp bits q L, Inv w tot C sp bits q L -> wok (length bits) q ops ->
  exists w' tot' calls C' sp', wrun ops w tot = (w', tot', calls, wtells q ops) /\
    asafe calls (C, sp) /\ arun calls (C, sp) = (C', sp') /\ bytes C' /\ bytes_bits C' = wspec bits q ops.
Proof.
  induction ops as [|o ops IH]; intros w tot C sp bits q L H K; [destruct K|].
  destruct (wok_flush_last _ _ _ _ K) as [(-> & -> & A)|[Ko Kr]].
  - destruct (Inv_flush _ _ _ _ _ _ _ H) as (C' & sp' & rest & R & S0 & I' & Er). specialize (Er A). subst rest.
    cbn [wrun wstep wtells wspec wdata]. do 3 eexists. exists C', sp'. rewrite app_nil_r, over_nil.
    split; [reflexivity|]. split; [exact S0|]. split; [exact R|]. split; [apply (iv_bytes _ _ _ _ _ _ _ I')|].
    rewrite (iv_bits _ _ _ _ _ _ _ I'). symmetry. apply over_nil.
  - assert (Lb : (q <= length bits)%nat).
    { destruct H as [Iw Io It Iq Is Ib Iy]. rewrite Ib, over_length by (rewrite bytes_bits_length; lia). lia. }
    assert (Go : forall w1 t1 c1 x1 C1 sp1 L1, wstep o w tot = (w1, t1, c1, x1) -> asafe c1 (C, sp) ->
       arun c1 (C, sp) = (C1, sp1) -> Inv w1 t1 C1 sp1 (over bits q (wdata o)) (wmoved q o) L1 ->
       x1 ++ wtells (wmoved q o) ops = wtells q (o :: ops) ->
       exists w' tot' calls C' sp', wrun (o :: ops) w tot = (w', tot', calls, wtells q (o :: ops)) /\
         asafe calls (C, sp) /\ arun calls (C, sp) = (C', sp') /\ bytes C' /\ bytes_bits C' = wspec bits q (o :: ops)).
    { intros w1 t1 c1 x1 C1 sp1 L1 Es As Ar I1 Ex.
      destruct (IH w1 t1 C1 sp1 _ _ L1 I1) as (w' & t' & calls & C' & sp' & E2 & A2 & R2 & B2 & S2).
      { rewrite over_length by exact Lb. exact Kr. }
      cbn [wrun]. rewrite Es, E2. exists w', t', (c1 ++ calls), C', sp'. rewrite Ex.
      split; [reflexivity|]. split; [apply asafe_app; [exact As|rewrite Ar; exact A2]|].
      split; [rewrite arun_app, Ar; exact R2|]. split; [exact B2|]. cbn [wspec]. exact S2. }
    destruct o as [v n|d|p| |].
    + pose proof (WInv_put P tail HP Htail L w v n (iv_w _ _ _ _ _ _ _ H) Ko) as W'.
      destruct (Inv_step _ _ _ _ _ _ _ _ _ H W') as (C1 & sp1 & rest & R & S0 & I' & _).
      rewrite field_bits_length in I'.
      eapply (Go _ _ _ _ C1 sp1 rest); [reflexivity|exact S0|exact R| |reflexivity].
      cbn [wdata wmoved]. rewrite field_bits_length. exact I'.
    + destruct Ko as [Bd A]. destruct (Inv_flush _ _ _ _ _ _ _ H) as (C1 & sp1 & rest & R & S0 & I' & Er).
      specialize (Er A). subst rest.
      eapply (Go _ _ _ _ (over C1 sp1 d) (sp1 + length d)%nat []); [reflexivity| | | |reflexivity].
      * apply asafe_app; [exact S0|]. cbn. auto.
      * rewrite arun_app, R. reflexivity.
      * destruct I' as [Iw Io It Iq Is Ib Iy]. cbn [wdata wmoved]. rewrite bytes_bits_length. cbn [length] in *.
        split; auto; cbn [length]; try lia.
        -- rewrite over_length by exact Is. lia.
        -- rewrite over_nil, over_bytes by exact Is. rewrite over_nil in Ib. rewrite Ib. f_equal. lia.
        -- apply bytes_over; assumption.
    + destruct Ko as [A Lp]. destruct (Inv_flush _ _ _ _ _ _ _ H) as (C1 & sp1 & rest & R & S0 & I' & Er).
      specialize (Er A). subst rest. destruct I' as [Iw Io It Iq Is Ib Iy]. cbn [length] in *.
      rewrite over_nil in Ib.
      assert (Lc : (p <= length C1)%nat) by (rewrite Ib, bytes_bits_length in Lp; lia).
      eapply (Go _ _ _ _ C1 p []); [reflexivity| | | |reflexivity].
      * apply asafe_app; [exact S0|]. rewrite R. cbn. auto.
      * rewrite arun_app, R. reflexivity.
      * cbn [wdata wmoved]. rewrite over_nil. split; auto; cbn [length]; try lia. rewrite over_nil. exact Ib.
    + destruct (Inv_flush _ _ _ _ _ _ _ H) as (C1 & sp1 & rest & R & S0 & I' & _).
      eapply (Go _ _ _ _ C1 sp1 rest); [reflexivity|exact S0|exact R| |].
      * cbn [wdata wmoved length]. rewrite over_nil, Nat.add_0_r. exact I'.
      * reflexivity.
    + eapply (Go _ _ _ _ C sp L); [reflexivity|exact I|reflexivity| |].
      * cbn [wdata wmoved length]. rewrite over_nil, Nat.add_0_r. exact H.
      * cbn [wtells wmoved wdata length app]. rewrite Nat.add_0_r, (iv_tot _ _ _ _ _ _ _ H). reflexivity.
Qed.

Lemma writer_ok ops : wok 0 0 ops ->
  exists w tot calls C' sp', wrun ops (wcreate P tail) 0 = (w, tot, calls, wtells 0 ops) /\
    asafe calls ([], 0%nat) /\ arun calls ([], 0%nat) = (C', sp') /\ bytes C' /\ bytes_bits C' = wspec [] 0 ops.
Proof.
  intros K. apply (wrun_ok ops (wcreate P tail) 0 [] 0 [] 0 []); [|exact K].
  split; auto; try reflexivity. - apply WInv_create; assumption. - constructor.
Qed.
End W.

(** ** memory storage *)
Record MR (m : ms) (C : list Z) (sp : nat) : Prop := {
  mr_content : mcontent m = C; mr_size : msize m = length C; mr_pos : mpos m = sp;
  mr_cur : CBuffer_model.current (cb m) = sp; mr_sp : (sp <= length C)%nat;
  mr_cap : (length C < length (CBuffer_model.mem (cb m)))%nat; mr_org : (0 < CBuffer_model.origin (cb m))%nat }.

Lemma MR_write m C sp d : MR m C sp -> exists m', mwrite d m = MOk m' /\ MR m' (over C sp d) (sp + length d).
Proof.
  intros [Ec Es Ep Eu Hs Hc Ho]. unfold mwrite. rewrite Ep.
  assert (PB : exists b1, (if Nat.leb (length (CBuffer_model.mem (cb m)) - sp) (length d)
         then CBuffer_model.prepare CBuffer_model.FUEL (length d) (cb m) else Some (cb m)) = Some b1 /\
     CBuffer_model.current b1 = sp /\ CBuffer_model.origin b1 = CBuffer_model.origin (cb m) /\
     (sp + length d < length (CBuffer_model.mem b1))%nat /\ (length C < length (CBuffer_model.mem b1))%nat /\
     firstn sp (CBuffer_model.mem b1) = firstn sp C /\
     (sp + length d < length C -> CBuffer_model.mem b1 = CBuffer_model.mem (cb m))%nat).
  { assert (Fs : firstn sp (CBuffer_model.mem (cb m)) = firstn sp C).
    { rewrite <- Ec. unfold mcontent. rewrite firstn_firstn. f_equal. lia. }
    destruct (Nat.leb_spec (length (CBuffer_model.mem (cb m)) - sp) (length d)) as [Q|Q].
    - destruct (CBuffer_proofs.prepare_ok (length d) (cb m)) as (b1 & E1 & W1 & C1 & L1 & K1 & O1 & M1).
      { split; lia. }
      exists b1. split; [exact E1|]. split; [lia|]. split; [exact O1|]. split; [lia|]. split; [lia|]. split.
      + unfold CBuffer_model.content in C1. rewrite K1, Eu in C1. rewrite C1. exact Fs.
      + intros Z0. lia.
    - exists (cb m). repeat split; auto; lia. }
  destruct PB as (b1 & E1 & K1 & O1 & L1 & L2 & F1 & N1). rewrite E1.
  unfold CBuffer_model.blit. replace (Nat.leb (sp + length d) (length (CBuffer_model.mem b1))) with true by (symmetry; apply Nat.leb_le; lia).
  eexists. split; [reflexivity|].
  set (sz := if Nat.leb (msize m) (sp + length d) then (sp + length d)%nat else msize m).
  assert (Sz : sz = Nat.max (length C) (sp + length d)).
  { unfold sz. rewrite Es. destruct (Nat.leb_spec (length C) (sp + length d)); lia. }
  split; cbn [cb mpos msize CBuffer_model.mem CBuffer_model.current CBuffer_model.origin].
  - unfold mcontent. cbn [msize cb CBuffer_model.mem]. fold (over (CBuffer_model.mem b1) sp d).
    rewrite Sz. destruct (Nat.ltb_spec (sp + length d) (length C)) as [Q|Q].
    + rewrite Nat.max_l by lia. rewrite (N1 Q). unfold over. rewrite app_assoc, firstn_app.
      rewrite app_length, firstn_length. rewrite Nat.min_l by lia.
      rewrite firstn_all2 by (rewrite app_length, firstn_length; lia). rewrite <- app_assoc.
      rewrite <- (N1 Q) at 1. rewrite F1. f_equal. f_equal.
      rewrite <- Ec at 2. unfold mcontent. rewrite Es. rewrite skipn_firstn_comm. f_equal.
    + rewrite Nat.max_r by lia. rewrite firstn_over by lia. unfold over. rewrite F1.
      rewrite (skipn_all2 C) by lia. rewrite app_nil_r. reflexivity.
  - rewrite over_length by exact Hs. exact Sz.
  - reflexivity.
  - lia.
  - rewrite over_length by exact Hs. lia.
  - rewrite over_length by exact Hs. rewrite !app_length, firstn_length, skipn_length. lia.
  - lia.
Qed.

Lemma MR_seek m C sp p : MR m C sp -> (p <= length C)%nat -> exists m', mseek p m = MOk m' /\ MR m' C p.
Proof.
  intros [Ec Es Ep Eu Hs Hc Ho] Hp. unfold mseek. rewrite Eu.
  destruct (Nat.ltb_spec p sp) as [Q|Q].
  - unfold CBuffer_model.back. rewrite Eu. replace (Nat.ltb sp (sp - p)) with false by (symmetry; apply Nat.ltb_ge; lia).
    eexists. split; [reflexivity|]. split; cbn [cb mpos msize CBuffer_model.mem CBuffer_model.current CBuffer_model.origin]; auto. lia.
  - replace (Nat.leb _ _) with true by (symmetry; apply Nat.leb_le; lia).
    eexists. split; [reflexivity|]. split; cbn [cb mpos msize CBuffer_model.mem CBuffer_model.current CBuffer_model.origin]; auto.
Qed.

Lemma mrun_ok calls : forall m C sp C' sp', MR m C sp -> asafe calls (C, sp) -> arun calls (C, sp) = (C', sp') ->
  exists m', mrun calls m = MOk m' /\ MR m' C' sp'.
Proof.
  induction calls as [|c calls IH]; intros m C sp C' sp' M A R.
  - cbn in R. injection R as <- <-. exists m. auto.
  - cbn [asafe] in A. destruct A as [A0 A]. cbn [mrun]. change (arun (c :: calls) (C, sp)) with (arun calls (acall c (C, sp))) in R.
    destruct c as [d|p]; cbn [acall fst snd] in *.
    + destruct (MR_write m C sp d M) as (m1 & E1 & M1). rewrite E1. eapply IH; eauto.
    + destruct (MR_seek m C sp p M A0) as (m1 & E1 & M1). rewrite E1. eapply IH; eauto.
Qed.
Lemma MR_create init : (0 < init)%nat -> MR (mcreate init) [] 0.
Proof.
  intros H. split; unfold mcontent; cbn [mcreate cb mpos msize CBuffer_model.create CBuffer_model.mem CBuffer_model.current CBuffer_model.origin firstn length]; auto.
  rewrite repeat_length. exact H.
Qed.

Lemma memory_store page tail init ops : (5 <= page)%nat -> bytes tail -> (0 < init)%nat -> wok 0 0 ops ->
  exists w tot calls m, wrun ops (wcreate page tail) 0 = (w, tot, calls, wtells 0 ops) /\
    mrun calls (mcreate init) = MOk m /\ bytes_bits (mcontent m) = wspec [] 0 ops /\ msize m = length (mcontent m).
Proof.
  intros HP HT Hi K. destruct (writer_ok page tail HP HT ops K) as (w & tot & calls & C' & sp' & E & A & R & B & S0).
  destruct (mrun_ok calls _ _ _ _ _ (MR_create init Hi) A R) as (m & Em & Mm).
  exists w, tot, calls, m. split; [exact E|]. split; [exact Em|]. rewrite (mr_content _ _ _ Mm). split; [exact S0|].
  exact (mr_size _ _ _ Mm).
Qed.

(** ** file storage *)
Lemma fput_over C p d : (p <= length C)%nat -> fput C (p, d) = over C p d.
Proof.
  intros H. unfold fput. cbn [fst snd]. destruct d as [|x d]; [symmetry; apply over_nil|].
  replace (p - length C)%nat with 0%nat by lia. cbn [repeat]. rewrite app_nil_r. reflexivity.
Qed.
Lemma fissue_ok calls : forall C sp C' sp', (sp <= length C)%nat -> asafe calls (C, sp) -> arun calls (C, sp) = (C', sp') ->
  fapply (fissue calls sp) C = C'.
Proof.
  induction calls as [|c calls IH]; intros C sp C' sp' L A R.
  - cbn in R. injection R as <- <-. reflexivity.
  - change (arun (c :: calls) (C, sp)) with (arun calls (acall c (C, sp))) in R. cbn [asafe] in A. destruct A as [A0 A].
    destruct c as [d|p]; cbn [acall fst snd fissue] in *.
    + unfold fapply. cbn [fold_left]. rewrite fput_over by exact L. apply (IH _ _ C' sp'); auto.
      rewrite over_length by exact L. lia.
    + apply (IH _ _ C' sp'); auto.
Qed.
Lemma file_store page tail ops : (5 <= page)%nat -> bytes tail -> wok 0 0 ops ->
  exists w tot calls, wrun ops (wcreate page tail) 0 = (w, tot, calls, wtells 0 ops) /\
    bytes_bits (fapply (fissue calls 0) []) = wspec [] 0 ops.
Proof.
  intros HP HT K. destruct (writer_ok page tail HP HT ops K) as (w & tot & calls & C' & sp' & E & A & R & B & S0).
  exists w, tot, calls. split; [exact E|]. rewrite (fissue_ok calls [] 0 C' sp'); auto.
Qed.

(** *** completion in another order *)
Definition apart (a b : nat * list Z) : Prop :=
  (fst a + length (snd a) <= fst b \/ fst b + length (snd b) <= fst a)%nat.

Lemma nth_repeat0 n i : nth i (repeat 0 n) 0 = 0.
Proof. revert i. induction n as [|n IH]; intros [|i]; cbn; auto. Qed.
Lemma fput_length C w : length (fput C w) = match snd w with [] => length C | d => Nat.max (length C) (fst w + length d) end.
Proof.
  unfold fput. destruct (snd w) as [|x d]; [reflexivity|].
  rewrite !app_length, firstn_length, app_length, repeat_length, skipn_length. lia.
Qed.
Lemma fput_nth C w i : nth i (fput C w) 0 =
  if Nat.leb (fst w) i && Nat.ltb i (fst w + length (snd w)) then nth (i - fst w) (snd w) 0 else nth i C 0.
Proof.
  unfold fput. destruct w as [a d]. cbn [fst snd]. destruct d as [|x d].
  - cbn [length]. replace (Nat.leb a i && Nat.ltb i (a + 0)) with false; [reflexivity|].
    symmetry. apply andb_false_iff. destruct (Nat.leb_spec a i); [right; apply Nat.ltb_ge; lia|left; reflexivity].
  - set (e := x :: d). assert (La : length (firstn a (C ++ repeat 0 (a - length C))) = a).
    { rewrite firstn_length, app_length, repeat_length. lia. }
    destruct (Nat.leb_spec a i) as [H1|H1]; cbn [andb].
    + destruct (Nat.ltb_spec i (a + length e)) as [H2|H2].
      * rewrite app_nth2 by lia. rewrite La. rewrite app_nth1 by lia. reflexivity.
      * rewrite app_nth2 by lia. rewrite La. rewrite app_nth2 by lia. rewrite nth_skipn. f_equal. lia.
    + rewrite app_nth1 by lia. rewrite nth_firstn by lia.
      destruct (Nat.ltb_spec i (length C)) as [H2|H2]; [apply app_nth1; lia|].
      rewrite app_nth2 by lia. rewrite nth_repeat0. symmetry. apply nth_overflow. lia.
Qed.
Lemma nth_ext0 (a b : list Z) : length a = length b -> (forall i, nth i a 0 = nth i b 0) -> a = b.
Proof. intros H E. apply (nth_ext a b 0 0 H). intros i _. apply E. Qed.
Lemma fput_comm C a b : apart a b -> fput (fput C a) b = fput (fput C b) a.
Proof.
  intros H. apply nth_ext0.
  - rewrite !fput_length. destruct (snd a), (snd b); try reflexivity. lia.
  - intros i. rewrite !fput_nth. unfold apart in H.
    destruct (Nat.leb_spec (fst a) i), (Nat.leb_spec (fst b) i), (Nat.ltb_spec i (fst a + length (snd a))),
      (Nat.ltb_spec i (fst b + length (snd b))); cbn [andb]; try reflexivity; lia.
Qed.
Lemma apart_sym a b : apart a b -> apart b a.
Proof. unfold apart. tauto. Qed.
Lemma fapply_perm ws ws' : Permutation ws ws' -> ForallOrdPairs apart ws -> forall C, fapply ws C = fapply ws' C.
Proof.
  induction 1 as [|x l l' P IH|x y l|l1 l2 l3 P1 IH1 P2 IH2]; intros D C.
  - reflexivity.
  - inversion D; subst. unfold fapply in *. cbn [fold_left]. apply IH. assumption.
  - inversion D as [|? ? F D']; subst. inversion F; subst. unfold fapply. cbn [fold_left]. f_equal. apply fput_comm. assumption.
  - rewrite IH1 by exact D. apply IH2.
    clear - D P1. induction P1 as [|x l l' P IH|x y l|l1 l2 l3 P1 IH1 P2 IH2]; auto.
    + inversion D; subst. constructor; [|auto]. rewrite Forall_forall in *. intros z Hz. apply H1.
      apply (Permutation_in z (Permutation_sym P) Hz).
    + inversion D as [|? ? F D']; subst. inversion F; subst. inversion D'; subst.
      constructor; [constructor; [apply apart_sym; assumption|assumption]|]. constructor; assumption.
Qed.

Definition no_seek (c : scall) : Prop := match c with SSeek _ => False | _ => True end.
Lemma fissue_after calls : Forall no_seek calls -> forall sp w, In w (fissue calls sp) -> (sp <= fst w)%nat.
Proof.
  induction 1 as [|c calls Hc F IH]; intros sp w Hw; [destruct Hw|]. destruct c as [d|p]; [|destruct Hc].
  cbn [fissue] in Hw. destruct Hw as [<-|Hw]; [cbn; lia|]. specialize (IH _ _ Hw). lia.
Qed.
Lemma fissue_apart calls : Forall no_seek calls -> forall sp, ForallOrdPairs apart (fissue calls sp).
Proof.
  induction 1 as [|c calls Hc F IH]; intros sp; [constructor|]. destruct c as [d|p]; [|destruct Hc].
  cbn [fissue]. constructor; [|apply IH]. apply Forall_forall. intros w Hw.
  left. cbn [fst snd]. exact (fissue_after calls F _ w Hw).
Qed.

Lemma drain_no_seek w : Forall no_seek (drain w).
Proof. unfold drain. destruct (wout w); constructor; [exact I|constructor]. Qed.
Lemma wrun_no_seek ops : (forall p, ~ In (WSeek p) ops) -> forall w tot w' t' calls x,
  wrun ops w tot = (w', t', calls, x) -> Forall no_seek calls.
Proof.
  induction ops as [|o ops IH]; intros N w tot w' t' calls x E; cbn [wrun] in E.
  - injection E as _ _ <- _. constructor.
  - destruct (wstep o w tot) as [[[w1 t1] c1] x1] eqn:E1. destruct (wrun ops w1 t1) as [[[w2 t2] c2] x2] eqn:E2.
    injection E as _ _ <- _. apply Forall_app. split.
    + destruct o as [v n|d|p| |]; cbn [wstep] in E1; injection E1 as _ _ <- _.
      * apply drain_no_seek.
      * apply Forall_app. split; [apply drain_no_seek|]. constructor; [exact I|constructor].
      * exfalso. apply (N p). left. reflexivity.
      * apply drain_no_seek.
      * constructor.
    + eapply IH; [|exact E2]. intros p Hp. apply (N p). right. exact Hp.
Qed.

Lemma file_any_order page tail ops : (5 <= page)%nat -> bytes tail -> wok 0 0 ops -> (forall p, ~ In (WSeek p) ops) ->
  exists w tot calls, wrun ops (wcreate page tail) 0 = (w, tot, calls, wtells 0 ops) /\
    forall done, Permutation (fissue calls 0) done -> bytes_bits (fapply done []) = wspec [] 0 ops.
Proof.
  intros HP HT K N. destruct (file_store page tail ops HP HT K) as (w & tot & calls & E & S0).
  exists w, tot, calls. split; [exact E|]. intros done D. rewrite <- S0.
  rewrite (fapply_perm _ _ D); [reflexivity|]. apply fissue_apart. exact (wrun_no_seek ops N _ _ _ _ _ _ E).
Qed.
