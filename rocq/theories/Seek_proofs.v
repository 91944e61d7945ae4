From Coq Require Import ZifyNat.
From Verif Require Import Util Bits_spec Bits_lemmas Bitstream_model Bitstream_proofs Seek_model.
Local Ltac Zify.zify_post_hook ::= Z.div_mod_to_equations.

Lemma load_masked m c n : (n <= 32)%nat -> Z.land (load_bits m c n) (nth n tmask 0) = load_bits m c n.
Proof. intros H. rewrite tmask_ones by lia. rewrite Z.land_ones by lia. apply Z.mod_small. apply load_bits_range. lia. Qed.

(** ** memory stream: the page holds the buffer from byte [k] to its end *)
Section M.
Variable file : list Z. Variable oob : nat -> Z.
Hypothesis Hfile : bytes file.
Hypothesis Hoob : forall i, is_byte (oob i).
Let F := length file.
Let bits := bytes_bits file.

Record MemK (k : nat) (st : rst) : Prop := {
  mk_k : (k <= F)%nat; mk_len : buf_len st = (F - k)%nat; mk_buf : length (buf st) = F;
  mk_bytes : bytes (buf st);
  mk_data : firstn (F - k) (buf st) = slice file k (F - k);
  mk_sh : sh_len st = 0%nat; mk_pend : pending st = None; mk_pos : pos st = F;
  mk_cur : (8 * k + cur st <= 8 * F)%nat; mk_tot : tot st = (8 * k + cur st)%nat }.

Lemma MemK_eof k st : MemK k st -> eof file st = true.
Proof. intros H. unfold eof. rewrite (mk_pos _ _ H). apply Nat.leb_refl. Qed.

Lemma MemK_move k st c t : MemK k st -> (8 * k + c <= 8 * F)%nat -> t = (8 * k + c)%nat -> MemK k (set_cur c t st).
Proof. intros [] ? ?. split; cbn [set_cur buf buf_len cur tot sh sh_len pos pending]; assumption. Qed.

Lemma MemK_adv k st n : MemK k st -> (8 * k + cur st + n <= 8 * F)%nat -> MemK k (advance n st).
Proof.
  intros H L. pose proof (mk_tot _ _ H). change (advance n st) with (set_cur (cur st + n) (tot st + n) st).
  apply MemK_move; [exact H|lia|lia].
Qed.

Lemma MemK_get k st n : MemK k st -> (1 <= n <= 32)%nat ->
  getbits file F oob n st =
  if Nat.leb (8 * k + cur st + n) (8 * F)
  then Ok (bits_val (firstn n (skipn (8 * k + cur st) bits)), advance n st) else EndOfData.
Proof.
  intros H Hn. pose proof (MemK_eof k st H) as He. destruct H as [A B C Y D E G I J K].
  unfold getbits, nextbits.
  replace (Nat.ltb 32 n) with false by (symmetry; apply Nat.ltb_ge; lia). rewrite B.
  destruct (Nat.leb_spec (8 * k + cur st + n) (8 * F)) as [L|L].
  - replace (Nat.ltb ((F - k) * 8) (cur st + n)) with false by (symmetry; apply Nat.ltb_ge; lia).
    cbn [bindo]. rewrite load_masked by lia.
    rewrite (load_from_page file F oob Hoob st k); [reflexivity| | | | | | |]; rewrite ?B; auto; unfold F in *; lia.
  - replace (Nat.ltb ((F - k) * 8) (cur st + n)) with true by (symmetry; apply Nat.ltb_lt; lia).
    unfold fill_buf. rewrite E, He. reflexivity.
Qed.

Lemma MemK_skip k st n : MemK k st ->
  exists st', skip file F oob n st = Ok st' /\ MemK k st' /\ (8 * k + cur st' = Nat.min (8 * k + cur st + n) (8 * F))%nat.
Proof.
  intros H. pose proof (MemK_eof k st H) as He. pose proof H as [A B C Y D E G I J K].
  unfold skip. rewrite B, E.
  destruct (Nat.ltb_spec ((F - k) * 8 - cur st) n) as [L|L].
  - replace (Nat.ltb n _) with false by (symmetry; apply Nat.ltb_ge; lia).
    unfold has_bits. rewrite He, B. replace (Nat.leb n _) with false by (symmetry; apply Nat.leb_gt; lia).
    unfold atend. rewrite He, E, B. cbn [Nat.eqb andb].
    destruct (Nat.leb_spec ((F - k) * 8) (cur st)) as [Q|Q].
    + exists st. split; [reflexivity|]. split; [exact H|lia].
    + eexists. split; [reflexivity|]. split; [apply MemK_adv; [exact H|lia]|]. cbn [advance cur]. lia.
  - eexists. split; [reflexivity|]. split; [apply MemK_adv; [exact H|lia]|]. cbn [advance cur]. lia.
Qed.

Lemma slice_at_end (l : list Z) a n : (length l <= a)%nat -> slice l a n = [].
Proof. intros H. unfold slice. rewrite skipn_all2 by exact H. apply firstn_nil. Qed.
Lemma slice_to_end (l : list Z) a n : (length l <= a + n)%nat -> slice l a n = slice l a (length l - a).
Proof.
  intros H. unfold slice. rewrite (firstn_all2 (n := n)) by (rewrite skipn_length; lia).
  rewrite firstn_all2 by (rewrite skipn_length; lia). reflexivity.
Qed.

Lemma MemK_reload k st p t : MemK k st -> (p <= F)%nat -> t = (8 * p)%nat ->
  exists st', reload file F p (set_cur (cur st) t st) = Ok st' /\ MemK p st' /\ cur st' = 0%nat.
Proof.
  intros H Hp Ht. pose proof H as [A B C Y D E G I J K]. unfold reload, complete. cbn [set_cur pending]. rewrite G. cbn [bindo].
  cbn [buf sh tot set_cur].
  assert (Ls : length (slice file p F) = (F - p)%nat) by (rewrite slice_length; unfold F in *; lia).
  unfold internal_read, eof. cbn [pos].
  set (np := if Nat.leb (length file) p then p else Nat.min (p + F) (length file)).
  assert (Np : np = F).
  { unfold np. fold F. destruct (Nat.leb_spec F p); lia. }
  rewrite Np. fold F. rewrite Nat.leb_refl. eexists. split; [reflexivity|]. split; [|reflexivity].
  split; cbn [buf buf_len cur tot sh sh_len pos pending].
  - exact Hp.
  - exact Ls.
  - rewrite app_length, skipn_length, Ls, C. lia.
  - unfold bytes. apply Forall_app. split; [apply bytes_slice; exact Hfile|].
    unfold bytes in Y. rewrite <- (firstn_skipn (length (slice file p F)) (buf st)), Forall_app in Y. apply Y.
  - rewrite firstn_app, Ls, Nat.sub_diag. cbn [firstn]. rewrite app_nil_r, firstn_all2 by lia.
    apply slice_to_end. fold F. lia.
  - reflexivity.
  - reflexivity.
  - reflexivity.
  - lia.
  - lia.
Qed.

Lemma MemK_seek k st p : MemK k st -> (cur st mod 8 = 0)%nat ->
  exists k' st', set_position file F oob p st = Ok st' /\ MemK k' st' /\ (8 * k' + cur st' = Nat.min (8 * p) (8 * F))%nat.
Proof.
  intros H Hc. pose proof (MemK_eof k st H) as He. pose proof H as [A B C Y D E G I J K].
  unfold set_position. rewrite He, E, G. cbn [Nat.eqb negb orb andb bindo]. rewrite I, B, E, He.
  replace (F - (F - k) - 0)%nat with k by lia. cbv zeta. cbn [andb].
  destruct (Nat.ltb_spec p F) as [L|L]; cbn [andb].
  - destruct (Nat.leb_spec k p) as [Q|Q]; cbn [andb].
    + replace (Nat.ltb (F - k - cur st / 8) (p - (k + cur st / 8))) with false by (symmetry; apply Nat.ltb_ge; lia).
      destruct (Nat.ltb_spec p (k + cur st / 8)) as [R|R].
      * exists k. eexists. split; [reflexivity|]. split; [apply MemK_move; [exact H|lia|lia]|].
        cbn [set_cur cur]. lia.
      * exists k. eexists. split; [reflexivity|]. split; [apply MemK_adv; [exact H|lia]|].
        cbn [advance cur]. lia.
    + replace (Nat.ltb F p) with false by (symmetry; apply Nat.ltb_ge; lia).
      destruct (MemK_reload k st p (8 * p)%nat H ltac:(lia) eq_refl) as (st' & X & M & Z0).
      exists p, st'. split; [exact X|]. split; [exact M|]. lia.
  - destruct (Nat.ltb_spec F p) as [R|R].
    + destruct (Nat.ltb_spec (k + cur st / 8) F) as [W|W].
      * exists k. eexists. split; [reflexivity|]. split; [apply MemK_adv; [exact H|lia]|]. cbn [advance cur]. lia.
      * exists k, st. split; [reflexivity|]. split; [exact H|]. lia.
    + destruct (MemK_reload k st p (8 * p)%nat H ltac:(lia) eq_refl) as (st' & X & M & Z0).
      exists p, st'. split; [exact X|]. split; [exact M|]. lia.
Qed.

Lemma MemK_deliver d k st : MemK k st -> deliver file F d st = Ok st.
Proof. intros H. unfold deliver, complete. rewrite (mk_pend _ _ H). destruct d; reflexivity. Qed.

Lemma bits_length : length bits = (8 * F)%nat.
Proof. unfold bits. rewrite bytes_bits_length. reflexivity. Qed.

Lemma MemK_session ops : forall k st, MemK k st -> well_formed bits (8 * k + cur st) (map snd ops) ->
  match expected bits (8 * k + cur st) (map snd ops) with
  | Some v => exists st', session file F oob ops st = Ok (v, st')
  | None => session file F oob ops st = EndOfData
  end.
Proof.
  induction ops as [|[d o] ops IH]; intros k st H W; cbn [map snd expected session].
  - exists st. reflexivity.
  - cbn [map snd well_formed] in W. destruct W as [W0 W].
    rewrite (MemK_deliver d k st H). cbn [bindo].
    assert (Go : forall k' st' x, step file F oob o st = Ok (x, st') -> MemK k' st' ->
       moved bits (8 * k + cur st) o = (8 * k' + cur st')%nat -> shown bits (8 * k + cur st) o = x ->
       match option_map (app (shown bits (8 * k + cur st) o))
               (expected bits (moved bits (8 * k + cur st) o) (map snd ops)) with
       | Some v => exists s2, bindo (step file F oob o st) (fun '(x, st) =>
           bindo (session file F oob ops st) (fun '(xs, st) => Ok (x ++ xs, st))) = Ok (v, s2)
       | None => bindo (step file F oob o st) (fun '(x, st) =>
           bindo (session file F oob ops st) (fun '(xs, st) => Ok (x ++ xs, st))) = EndOfData
       end).
    { intros k' st' x Ex Hm Em Es. rewrite Em in *. specialize (IH k' st' Hm W). rewrite Ex. cbn [bindo].
      destruct (expected bits (8 * k' + cur st') (map snd ops)) as [v|]; cbn [option_map].
      - destruct IH as (s2 & ->). cbn [bindo]. exists s2. rewrite Es. reflexivity.
      - rewrite IH. reflexivity. }
    destruct o as [n|n|p|].
    + rewrite bits_length. pose proof (MemK_get k st n H W0) as G.
      destruct (Nat.leb_spec (8 * k + cur st + n) (8 * F)) as [L|L].
      * eapply (Go k (advance n st)).
        -- cbn [step]. rewrite G. cbn [bindo]. reflexivity.
        -- apply MemK_adv; [exact H|lia].
        -- cbn [moved advance cur]. lia.
        -- reflexivity.
      * cbn [step]. rewrite G. reflexivity.
    + destruct (MemK_skip k st n H) as (st' & E & M & Q). apply (Go k st' []); [|exact M| |reflexivity].
      * cbn [step]. rewrite E. reflexivity.
      * cbn [moved]. rewrite bits_length. lia.
    + destruct (MemK_seek k st p H ltac:(lia)) as (k' & st' & E & M & Q). apply (Go k' st' []); [|exact M| |reflexivity].
      * cbn [step]. rewrite E. reflexivity.
      * cbn [moved]. rewrite bits_length. lia.
    + apply (Go k st [Z.of_nat ((8 * k + cur st) / 8)]); [|exact H|reflexivity|reflexivity].
      cbn [step]. unfold get_position. rewrite (mk_tot _ _ H). reflexivity.
Qed.

Lemma MemK_create : MemK 0 (create file F) /\ cur (create file F) = 0%nat.
Proof.
  unfold create, F. rewrite slice_all by lia. rewrite Nat.sub_diag, Nat.min_id. cbn [repeat]. rewrite app_nil_r.
  unfold internal_read, eof. cbn [pos]. rewrite Nat.leb_refl. split; [|reflexivity].
  split; cbn [buf buf_len sh_len pending pos cur tot]; fold F; try lia; try reflexivity.
  - exact Hfile.
Qed.

Lemma memory_session ops : well_formed bits 0 (map snd ops) ->
  match expected bits 0 (map snd ops) with
  | Some v => exists st', session file F oob ops (create file F) = Ok (v, st')
  | None => session file F oob ops (create file F) = EndOfData
  end.
Proof.
  destruct MemK_create as [H C]. pose proof (MemK_session ops 0 (create file F) H) as S0.
  rewrite C in S0. exact S0.
Qed.
End M.

(** ** file read by pages *)
Section P.
Variable file : list Z. Variable P : nat. Variable oob : nat -> Z.
Hypothesis Hfile : bytes file.
Hypothesis Hoob : forall i, is_byte (oob i).
Hypothesis HP : (8 <= P)%nat.
Let F := length file.
Let bits := bytes_bits file.

Lemma Good_len b st : Good file P b st -> buf_len st = P /\ (cur st <= 8 * P)%nat /\ (b + 2 * P <= F)%nat /\ pos st = (b + 2 * P)%nat /\ length (sh st) = P /\ length (buf st) = P.
Proof. intros []; auto 10. Qed.

Lemma Good_move b st c t : Good file P b st -> (c <= 8 * P)%nat -> Good file P b (set_cur c t st).
Proof.
  intros [] L; [apply GoodFull|eapply GoodPending]; cbn [set_cur buf buf_len cur tot sh sh_len pos pending]; eauto.
Qed.
Lemma Good_adv b st n : Good file P b st -> (cur st + n <= 8 * P)%nat -> Good file P b (advance n st).
Proof. intros H L. change (advance n st) with (set_cur (cur st + n) (tot st + n) st). apply Good_move; assumption. Qed.

Lemma Good_get b st n : Good file P b st -> (1 <= n <= 32)%nat ->
  (8 * b + cur st + n + 16 * P <= 8 * F)%nat -> tot st = (8 * b + cur st)%nat ->
  exists st' b', getbits file P oob n st = Ok (bits_val (firstn n (skipn (8 * b + cur st) bits)), st')
    /\ Good file P b' st' /\ (8 * b' + cur st' = 8 * b + cur st + n)%nat /\ tot st' = (8 * b' + cur st')%nat.
Proof.
  intros HG Hn Hroom Ht. destruct (getbits_good file P oob Hfile Hoob HP b st n HG Hn Hroom) as (st' & b' & E & G & C).
  exists st', b'. split; [exact E|]. split; [exact G|]. split; [exact C|]. rewrite C.
  (* tot *)
  unfold getbits, nextbits in E. replace (Nat.ltb 32 n) with false in E by (symmetry; apply Nat.ltb_ge; lia).
  destruct (Good_len _ _ HG) as (L1 & _). rewrite L1 in E.
  destruct (Nat.ltb_spec (P * 8) (cur st + n)) as [Q|Q].
  - destruct (fill_good file P oob Hoob HP b st n HG Hn ltac:(lia) Hroom) as (st1 & E1 & _ & _ & T1).
    rewrite E1 in E. cbn [bindo] in E. injection E as _ <-. cbn [advance tot]. lia.
  - cbn [bindo] in E. injection E as _ <-. cbn [advance tot]. lia.
Qed.

(** nextbits 32 with the lock held, cursor at the end of a full page, shadow full *)
Lemma Good_switch b st : Good file P b st -> pending st = None -> cur st = (8 * P)%nat ->
  (8 * b + 8 * P + 1 + 16 * P <= 8 * F)%nat ->
  exists st', nextbits_locked file P oob st = Ok st' /\ Good file P (b + P) st' /\ cur st' = 0%nat /\ tot st' = tot st
    /\ sh_len st' = 0%nat.
Proof.
  intros HG Hp Hc Hroom. unfold nextbits_locked. rewrite Hp. unfold nextbits.
  destruct (Good_len _ _ HG) as (L1 & _). rewrite L1. change (Nat.ltb 32 32) with false. cbv iota.
  replace (Nat.ltb (P * 8) (cur st + 32)) with true by (symmetry; apply Nat.ltb_lt; lia).
  destruct (fill_good file P oob Hoob HP b st 1 HG ltac:(lia) ltac:(lia) ltac:(unfold F in *; lia)) as (st1 & E1 & G1 & C1 & T1).
  rewrite E1. cbn [bindo]. exists st1. split; [reflexivity|]. replace (cur st / 8)%nat with P in G1 by lia.
  split; [exact G1|]. split; [lia|]. split; [exact T1|].
  (* the shadow page was taken entirely *)
  unfold fill_buf in E1. destruct HG as [H1 H2 H3 H4 H5 H6 H7 H8 H9 H10 | k H1 H2 H3 H4 H5 H6 H7 H8 H9 H10 H11]; [|congruence].
  rewrite H7, Nat.eqb_refl in E1.
  replace (Nat.eqb P 0) with false in E1 by (symmetry; apply Nat.eqb_neq; lia). cbn [andb bindo] in E1.
  rewrite H7 in E1. replace (Nat.eqb P 0) with false in E1 by (symmetry; apply Nat.eqb_neq; lia).
  replace (Nat.ltb (cur st / 8) P) with false in E1 by (symmetry; apply Nat.ltb_ge; lia).
  injection E1 as <-. unfold internal_read. destruct (eof _ _); cbn [sh_len]; lia.
Qed.

Definition settled (st : rst) : Prop := pending st = None \/ sh_len st = 0%nat.

Lemma Good_settle b st : Good file P b st -> settled st ->
  exists st', (if Nat.eqb (sh_len st) 0 && (negb (eof file st) || match pending st with Some _ => true | None => false end)
         then complete file P st else Ok st) = Ok st' /\ Good file P b st' /\ pending st' = None /\ cur st' = cur st /\ tot st' = tot st.
Proof.
  intros HG Hs. destruct (pending st) as [q|] eqn:Ep.
  - destruct Hs as [Hs|Hs]; [congruence|]. rewrite Hs, orb_true_r. cbn [Nat.eqb andb].
    destruct (complete_good file P oob Hoob HP b st HG) as (st' & A & B & C & D & E). exists st'. auto.
  - destruct HG as [H1 H2 H3 H4 H5 H6 H7 H8 H9 H10 | k H1 H2 H3 H4 H5 H6 H7 H8 H9 H10 H11]; [|congruence].
    rewrite H7. replace (Nat.eqb P 0) with false by (symmetry; apply Nat.eqb_neq; lia). cbn [andb].
    exists st. split; [reflexivity|]. split; [apply GoodFull; auto|]. auto.
Qed.

Lemma Good_reload b st p t : Good file P b st -> (p + 2 * P <= F)%nat ->
  exists st', reload file P p (set_cur (cur st) t st) = Ok st' /\ Good file P p st' /\ cur st' = 0%nat /\ tot st' = t
   /\ sh_len st' = 0%nat.
Proof.
  intros HG Hp. unfold reload.
  pose proof (Good_move b st (cur st) t HG (proj1 (proj2 (Good_len _ _ HG)))) as HG0.
  destruct (complete_good file P oob Hoob HP b _ HG0) as (st' & A & B & C & D & E). rewrite A. cbn [bindo].
  destruct (Good_len _ _ B) as (L1 & L2 & L3 & L4 & L5 & L6). fold F in L3.
  assert (Ls : length (slice file p P) = P) by (rewrite slice_length; unfold F in *; lia).
  unfold internal_read, eof. cbn [pos]. fold F.
  replace (Nat.leb F p) with false by (symmetry; apply Nat.leb_gt; lia).
  rewrite Nat.min_l by lia. replace (Nat.leb F (p + P)) with false by (symmetry; apply Nat.leb_gt; lia).
  eexists. split; [reflexivity|]. cbn [cur tot sh_len set_cur] in *.
  split; [|split; [reflexivity|split; [exact E|reflexivity]]].
  rewrite Ls. rewrite skipn_all2 by lia. rewrite app_nil_r.
  apply (GoodPending _ _ _ _ P); cbn [buf buf_len cur tot sh sh_len pos pending]; auto; unfold F in *; try lia.
  f_equal. f_equal. lia.
Qed.

Lemma Good_seek b st p : Good file P b st -> settled st -> tot st = (8 * b + cur st)%nat -> (cur st mod 8 = 0)%nat ->
  (8 * p + 16 * P <= 8 * F)%nat ->
  exists b' st', set_position file P oob p st = Ok st' /\ Good file P b' st' /\ (8 * b' + cur st' = 8 * p)%nat
    /\ tot st' = (8 * b' + cur st')%nat /\ settled st'.
Proof.
  intros HG0 Hs Ht0 Hc0 Hp. unfold set_position.
  destruct (Good_settle b st HG0 Hs) as (s & E & HG & Hn & Hc & Ht). rewrite E. cbn [bindo]. clear E.
  assert (Hsh : sh_len s = P).
  { destruct HG; congruence. }
  rewrite <- Hc in *. rewrite <- Ht in *. clear Hc Ht HG0 Hs st. rename s into st.
  destruct (Good_len _ _ HG) as (L1 & L2 & L3 & L4 & L5 & L6). rewrite L4, L1, Hsh.
  replace (b + 2 * P - P - P)%nat with b by lia. cbv zeta.
  destruct (Nat.ltb_spec p (b + 2 * P)) as [Q|Q]; cbn [andb].
  - destruct (Nat.leb_spec b p) as [R|R].
    + destruct (Nat.ltb_spec (P - cur st / 8) (p - (b + cur st / 8))) as [V|V].
      * pose proof (Good_adv b st (8 * (P - cur st / 8)) HG ltac:(lia)) as GA.
        destruct (Good_switch b _ GA Hn ltac:(cbn [advance cur]; lia) ltac:(lia)) as (s1 & E1 & G1 & C1 & T1 & S1).
        rewrite E1. cbn [bindo]. exists (b + P)%nat. eexists. split; [reflexivity|]. cbn [advance tot cur] in *.
        split; [apply Good_adv; [exact G1|lia]|]. unfold settled. cbn [advance sh_len pending cur tot].
        split; [lia|]. split; [lia|]. right. exact S1.
      * destruct (Nat.ltb_spec p (b + cur st / 8)) as [W|W].
        -- exists b. eexists. split; [reflexivity|]. split; [apply Good_move; [exact HG|lia]|]. unfold settled.
           cbn [set_cur cur tot pending]. split; [lia|]. split; [lia|]. left. exact Hn.
        -- exists b. eexists. split; [reflexivity|]. split; [apply Good_adv; [exact HG|lia]|]. unfold settled.
           cbn [advance cur tot pending]. split; [lia|]. split; [lia|]. left. exact Hn.
    + replace (Nat.ltb (b + 2 * P) p) with false by (symmetry; apply Nat.ltb_ge; lia). rewrite andb_false_r.
      destruct (Good_reload b st p (8 * p) HG ltac:(lia)) as (s1 & E1 & G1 & C1 & T1 & S1).
      exists p, s1. split; [exact E1|]. split; [exact G1|]. split; [lia|]. split; [lia|]. right. exact S1.
  - assert (X : eof file st && Nat.ltb (b + 2 * P) p = false).
    { unfold eof. rewrite L4. destruct (Nat.ltb_spec (b + 2 * P) p); [|apply andb_false_r].
      replace (Nat.leb _ _) with false; [reflexivity|]. symmetry. apply Nat.leb_gt. unfold F in *. lia. }
    rewrite X. destruct (Good_reload b st p (8 * p) HG ltac:(lia)) as (s1 & E1 & G1 & C1 & T1 & S1).
    exists p, s1. split; [exact E1|]. split; [exact G1|]. split; [lia|]. split; [lia|]. right. exact S1.
Qed.

Lemma Good_skip b st n : Good file P b st -> pending st = None -> tot st = (8 * b + cur st)%nat -> (n < 8 * P)%nat ->
  (8 * b + cur st + n + 16 * P + 8 <= 8 * F)%nat ->
  exists b' st', skip file P oob n st = Ok st' /\ Good file P b' st' /\ (8 * b' + cur st' = 8 * b + cur st + n)%nat
    /\ tot st' = (8 * b' + cur st')%nat /\ settled st'.
Proof.
  intros HG Hn Ht Hl Hroom. unfold skip. destruct (Good_len _ _ HG) as (L1 & L2 & L3 & L4 & L5 & L6). rewrite L1.
  assert (Hsh : sh_len st = P) by (destruct HG; congruence).
  destruct (Nat.ltb_spec (P * 8 - cur st) n) as [Q|Q].
  - rewrite Hsh. replace (Nat.ltb n _) with true by (symmetry; apply Nat.ltb_lt; lia).
    pose proof (Good_move b st (cur st + (P * 8 - cur st)) (tot st) HG ltac:(lia)) as GM.
    destruct (Good_switch b _ GM Hn ltac:(cbn [set_cur cur]; lia) ltac:(lia)) as (s1 & E1 & G1 & C1 & T1 & S1).
    rewrite E1. cbn [bindo]. exists (b + P)%nat. eexists. split; [reflexivity|].
    split; [apply Good_move; [exact G1|lia]|]. unfold settled. cbn [set_cur cur tot sh_len pending] in *.
    split; [lia|]. split; [lia|]. right. exact S1.
  - exists b. eexists. split; [reflexivity|]. split; [apply Good_adv; [exact HG|lia]|]. unfold settled.
    cbn [advance cur tot pending]. split; [lia|]. split; [lia|]. left. exact Hn.
Qed.

(** a byte read from a byte boundary leaves nothing behind in the shadow page *)
Lemma get8_settled b st x st' : Good file P b st -> settled st -> (cur st mod 8 = 0)%nat ->
  getbits file P oob 8 st = Ok (x, st') -> settled st'.
Proof.
  intros HG Hs Hc E. unfold getbits, nextbits in E. change (Nat.ltb 32 8) with false in E. cbv iota in E.
  destruct (Good_len _ _ HG) as (L1 & L2 & L3 & L4 & L5 & L6). rewrite L1 in E.
  destruct (Nat.ltb_spec (P * 8) (cur st + 8)) as [Q|Q].
  - destruct (fill_buf file P st) as [s1| | |] eqn:E1; cbn [bindo] in E; try discriminate E.
    injection E as _ <-. right. cbn [advance sh_len].
    unfold fill_buf in E1. destruct (_ && _) in E1; [discriminate|].
    assert (HC : exists s2, (if Nat.eqb (sh_len st) P then Ok st else complete file P st) = Ok s2 /\ Good file P b s2 /\
       pending s2 = None /\ cur s2 = cur st).
    { destruct (Nat.eqb_spec (sh_len st) P) as [E2|E2].
      - exists st. destruct HG as [? ? ? ? ? H6 ? ? ? ?|k ? ? ? ? ? H6 ? ? ? ? ?]; [|lia].
        repeat split; auto. apply GoodFull; auto.
      - destruct (complete_good file P oob Hoob HP b st HG) as (s2 & A & B & C & D & _). exists s2. auto. }
    destruct HC as (s2 & E2 & G2 & N2 & C2). rewrite E2 in E1. cbn [bindo] in E1.
    assert (S2 : sh_len s2 = P) by (destruct G2; congruence).
    destruct (Good_len _ _ G2) as (M1 & _). rewrite S2, M1, C2 in E1.
    replace (Nat.eqb P 0) with false in E1 by (symmetry; apply Nat.eqb_neq; lia).
    replace (Nat.ltb (cur st / 8) P) with false in E1 by (symmetry; apply Nat.ltb_ge; lia).
    injection E1 as <-. unfold internal_read. destruct (eof _ _); cbn [sh_len]; lia.
  - cbn [bindo] in E. injection E as _ <-. exact Hs.
Qed.

Lemma complete_settled b st st' : Good file P b st -> complete file P st = Ok st' -> pending st' = None.
Proof.
  intros HG E. destruct (complete_good file P oob Hoob HP b st HG) as (s2 & A & B & C & D & _). congruence.
Qed.

Lemma bits_length' : length bits = (8 * F)%nat.
Proof. unfold bits. rewrite bytes_bits_length. reflexivity. Qed.

Lemma Good_session (B : Prop) ops : forall b st, Good file P b st -> tot st = (8 * b + cur st)%nat ->
  (B -> settled st /\ cur st mod 8 = 0)%nat ->
  Forall (fun x => calm P x \/ (B /\ True)) ops -> (B -> Forall (bytewise P) ops) ->
  well_formed bits (8 * b + cur st) (map snd ops) -> inside (16 * P + 40) bits (8 * b + cur st) (map snd ops) ->
  exists v st', expected bits (8 * b + cur st) (map snd ops) = Some v /\ session file P oob ops st = Ok (v, st').
Proof.
  induction ops as [|[d o] ops IH]; intros b st HG Ht HB HC Hb W I; cbn [map snd expected session].
  - exists [], st. split; reflexivity.
  - cbn [map snd well_formed inside] in W, I. destruct W as [W0 W]. destruct I as [I0 [I1 I]].
    rewrite bits_length' in I0.
    inversion HC as [|x l C0 HC']; subst x l.
    assert (Hb' : B -> Forall (bytewise P) ops) by (intros b0; specialize (Hb b0); inversion Hb; assumption).
    assert (Hb0 : B -> bytewise P (d, o)) by (intros b0; specialize (Hb b0); inversion Hb; assumption).
    clear Hb HC.
    destruct (deliver_good file P oob Hoob HP d b st HG) as (s1 & E1 & G1 & C1 & T1). rewrite E1. cbn [bindo].
    assert (HB1 : (B -> settled s1 /\ cur s1 mod 8 = 0)%nat).
    { intros b0. specialize (HB b0). rewrite C1. split; [|apply HB]. destruct d; cbn [deliver] in E1.
      - left. exact (complete_settled b st s1 HG E1).
      - injection E1 as <-. apply HB. }
    assert (Hd : d = true -> pending s1 = None).
    { intros ->. cbn [deliver] in E1. exact (complete_settled b st s1 HG E1). }
    rewrite <- C1 in *. rewrite <- T1 in *. clear HB E1 C1 T1 HG. rename s1 into s.
    assert (Go : forall b' st' x, step file P oob o s = Ok (x, st') -> Good file P b' st' ->
       tot st' = (8 * b' + cur st')%nat -> (B -> settled st' /\ cur st' mod 8 = 0)%nat ->
       moved bits (8 * b + cur s) o = (8 * b' + cur st')%nat -> shown bits (8 * b + cur s) o = x ->
       exists v st2, option_map (app (shown bits (8 * b + cur s) o))
               (expected bits (moved bits (8 * b + cur s) o) (map snd ops)) = Some v /\
         bindo (step file P oob o s) (fun '(x, st) =>
           bindo (session file P oob ops st) (fun '(xs, st) => Ok (x ++ xs, st))) = Ok (v, st2)).
    { intros b' st' x Ex Gx Tx Bx Em Es. rewrite Em in *.
      destruct (IH b' st' Gx Tx Bx HC' Hb' W I) as (v & st2 & X1 & X2).
      rewrite Ex, X1. cbn [bindo option_map]. rewrite X2. cbn [bindo]. rewrite Es. eauto. }
    destruct o as [n|n|p|].
    + cbn [moved] in I. assert (Rm : (8 * b + cur s + n + 16 * P + 40 <= 8 * F)%nat).
      { destruct (map snd ops); cbn [inside] in I; destruct I as [I _]; rewrite bits_length' in I; lia. }
      destruct (Good_get b s n G1 W0 ltac:(lia) Ht) as (s2 & b2 & E2 & G2 & C2 & T2).
      replace (Nat.leb (8 * b + cur s + n) (length bits)) with true by (symmetry; apply Nat.leb_le; rewrite bits_length'; lia).
      eapply (Go b2 s2).
      * cbn [step]. rewrite E2. cbn [bindo]. reflexivity.
      * exact G2.
      * exact T2.
      * intros b0. destruct (HB1 b0) as [Z1 Z2]. specialize (Hb0 b0). cbn [bytewise snd] in Hb0. subst n.
        split; [exact (get8_settled b s _ _ G1 Z1 Z2 E2)|]. lia.
      * cbn [moved]. lia.
      * reflexivity.
    + rewrite bits_length' in I1.
      assert (Dn : d = true /\ (n < 8 * P)%nat).
      { destruct C0 as [C0|[b0 _]]; [exact C0|]. specialize (Hb0 b0). cbn [bytewise snd fst] in Hb0. tauto. }
      destruct (Good_skip b s n G1 (Hd (proj1 Dn)) Ht (proj2 Dn) ltac:(lia)) as (b2 & s2 & E2 & G2 & C2 & T2 & S2).
      apply (Go b2 s2 []); [|exact G2|exact T2| | |reflexivity].
      * cbn [step]. rewrite E2. reflexivity.
      * intros b0. split; [exact S2|]. destruct (HB1 b0) as [Z1 Z2]. specialize (Hb0 b0). cbn [bytewise snd] in Hb0. lia.
      * cbn [moved]. rewrite bits_length'. lia.
    + rewrite bits_length' in I1.
      assert (St : settled s).
      { destruct C0 as [C0|[b0 _]]; [left; exact (Hd C0)|]. apply (HB1 b0). }
      destruct (Good_seek b s p G1 St Ht ltac:(lia) ltac:(lia)) as (b2 & s2 & E2 & G2 & C2 & T2 & S2).
      apply (Go b2 s2 []); [|exact G2|exact T2| | |reflexivity].
      * cbn [step]. rewrite E2. reflexivity.
      * intros b0. split; [exact S2|]. lia.
      * cbn [moved]. rewrite bits_length'. lia.
    + apply (Go b s [Z.of_nat ((8 * b + cur s) / 8)]); [|exact G1|exact Ht|exact HB1|reflexivity|reflexivity].
      cbn [step]. unfold get_position. rewrite Ht. reflexivity.
Qed.

Lemma file_session (B : Prop) ops : (2 * P <= F)%nat ->
  Forall (fun x => calm P x \/ (B /\ True)) ops -> (B -> Forall (bytewise P) ops) ->
  well_formed bits 0 (map snd ops) -> inside (16 * P + 40) bits 0 (map snd ops) ->
  exists v st', expected bits 0 (map snd ops) = Some v /\ session file P oob ops (create file P) = Ok (v, st').
Proof.
  intros L C0 Hb W I. destruct (create_good file P oob Hoob HP L) as [G C].
  assert (T : tot (create file P) = 0%nat).
  { unfold create, internal_read. destruct (eof _ _); reflexivity. }
  pose proof (Good_session B ops 0 (create file P) G) as X. rewrite C, T in X. apply X; auto.
  intros _. split; [|reflexivity]. right. unfold create, internal_read. destruct (eof _ _); reflexivity.
Qed.
End P.
