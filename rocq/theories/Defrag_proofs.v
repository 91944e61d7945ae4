(** Proofs about Defrag_model. *)
From Verif Require Import Util SampleTab_model SampleTab_proofs Box_model Box_proofs HlsCrypt_model Cenc_model Frag_model Frag_proofs Frag_proofs2 Frag_proofs4 Double_model Double_proofs Defrag_model.
From Flocq Require BinarySingleNaN.
Local Open Scope Z_scope.

(** ** a file without fragments *)
Lemma do_box_any : forall pre size type body post, length size = 4%nat -> length type = 4%nat -> be_val 0 size = 8 + zlen body -> be_val 0 type <> uuid ->
  do_box (pre ++ size ++ type ++ body ++ post) (zlen pre) = Some (mkR (zlen pre + 8) (zlen pre) (8 + zlen body) (be_val 0 type)).
Proof.
  intros pre size type body post H1 H2 H3 H4. unfold do_box, parse_box, num_at. rewrite <- H1. rewrite bytes_at_app. rewrite H3. replace (pre ++ size ++ type ++ body ++ post) with ((pre ++ size) ++ type ++ (body ++ post)) by (rewrite <- !app_assoc; reflexivity).
  replace (zlen pre + 4) with (zlen (pre ++ size)) by (unfold zlen; rewrite app_length, H1; lia). rewrite H1, <- H2, bytes_at_app. pose proof (zlen_nonneg body). replace (8 + zlen body =? 1) with false by lia. rewrite (proj2 (Z.eqb_neq _ _) H4). reflexivity.
Qed.
Lemma handle_unknown : forall f b m, ~ In (r_type b) known -> 8 <= r_size b < 2 ^ 60 -> r_pos b = r_box b + 8 -> handle_box f b m = Some (m, r_box b + r_size b).
Proof.
  intros f b m N S P. assert (X : forall y, In y known -> (r_type b =? y) = false) by (intros y Y; apply Z.eqb_neq; intros Q; rewrite Q in N; contradiction). clear N.
  unfold handle_box. destruct (r_type b =? FREE); [reflexivity|]. rewrite !X by (unfold known; cbn [In]; tauto). cbn [orb]. assert (K : skip_current b = r_box b + r_size b) by (unfold skip_current; rewrite skipbytes_ok by lia; lia). rewrite K. reflexivity.
Qed.
Lemma walk_unknown : forall l rest, boxes rest l -> Forall (fun b => ~ In (fst b) known) l -> forall pre fuel m, rest <> [] -> m_mdat m = 0 -> zlen (pre ++ rest) < 2 ^ 60 -> (length l <= fuel)%nat ->
  exists p, walk fuel (pre ++ rest) (zlen pre) m = Some (m, p).
Proof.
  intros l rest B. induction B as [|size type body rest l H1 H2 H3 B IH]; intros F pre fuel m Hn Hm L Lf; [congruence|]. destruct fuel as [|fuel]; [cbn [length] in Lf; lia|]. cbn [length] in Lf.
  pose proof (Forall_inv F) as F1. cbn [fst] in F1. pose proof (zlen_nonneg body). pose proof (zlen_nonneg rest). pose proof (zlen_nonneg pre).
  assert (L1 : zlen (pre ++ size ++ type ++ body ++ rest) = zlen pre + 8 + zlen body + zlen rest) by (unfold zlen; rewrite !app_length, H1, H2; lia).
  assert (D : do_box (pre ++ size ++ type ++ body ++ rest) (zlen pre) = Some (mkR (zlen pre + 8) (zlen pre) (8 + zlen body) (be_val 0 type))). { apply do_box_any; try assumption. intros U. apply F1. rewrite U. unfold known. cbn [In]. tauto. }
  assert (Hh : handle_box (pre ++ size ++ type ++ body ++ rest) (mkR (zlen pre + 8) (zlen pre) (8 + zlen body) (be_val 0 type)) m = Some (m, zlen (pre ++ size ++ type ++ body))).
  { rewrite handle_unknown; cbn [r_type r_size r_pos r_box]; [|exact F1|lia|reflexivity]. f_equal. f_equal. unfold zlen in *. rewrite !app_length, H1, H2. lia. }
  destruct rest as [|r0 rest].
  - exists (zlen (pre ++ size ++ type ++ body)). unfold walk. rewrite D. cbn [parse_boxes]. rewrite Hh. rewrite app_nil_r. rewrite Z.ltb_irrefl. reflexivity.
  - rewrite (step fuel _ _ m _ m _ D Hh); [|rewrite !zlen_app'; unfold zlen in *; cbn [length]; lia|exact Hm]. replace (pre ++ size ++ type ++ body ++ r0 :: rest) with ((pre ++ size ++ type ++ body) ++ r0 :: rest) in * by (rewrite <- !app_assoc; reflexivity). apply IH; [exact (Forall_inv_tail F)|discriminate|exact Hm|exact L|lia].
Qed.
Lemma boxes_count : forall rest l, boxes rest l -> (length l <= length rest)%nat.
Proof. intros rest l B. induction B as [|size type body rest l H1 H2 H3 B IH]; [cbn; lia|]. cbn [length]. rewrite !app_length. lia. Qed.
Lemma init_file : forall key f, no_fragment f -> read_file key f = Some [].
Proof.
  intros key f (l & B & F & L). unfold read_file. cbn [read_fragments]. unfold parse. change (m_moof moof0) with 0. destruct (zlen f <=? 0) eqn:E0; [reflexivity|].
  set (m := mkMoof 0 0 (m_default moof0) (m_trun moof0) (m_tfdt moof0) (m_senc moof0)). destruct (walk_unknown l f B F [] (S (length f)) m) as (p & W).
  - intros ->. apply Z.leb_gt in E0. cbn in E0. lia.
  - reflexivity.
  - exact L.
  - pose proof (boxes_count _ _ B). lia.
  - unfold walk in W. cbn [app] in W. change (zlen []) with 0 in W. rewrite W. reflexivity.
Qed.

(** ** the calls *)
Lemma for_app : forall k a b, for_stream k (a ++ b) = for_stream k a ++ for_stream k b. Proof. intros. unfold for_stream. apply filter_app. Qed.
Lemma for_all : forall k l, Forall (fun c => c_stream c = k) l -> for_stream k l = l.
Proof. intros k l F. induction F as [|c l H F IH]; [reflexivity|]. unfold for_stream in *. cbn [filter]. rewrite H, Nat.eqb_refl, IH. reflexivity. Qed.
Lemma for_none : forall k l, Forall (fun c => c_stream c <> k) l -> for_stream k l = [].
Proof. intros k l F. induction F as [|c l H F IH]; [reflexivity|]. unfold for_stream in *. cbn [filter]. rewrite (proj2 (Nat.eqb_neq _ _) H). exact IH. Qed.
Lemma add_stream : forall k au tb l first, Forall (fun c => c_stream c = k) (add_samples k au tb first l).
Proof. intros k au tb. induction l as [|s l IH]; intros first; [constructor|]. cbn [add_samples]. constructor; [reflexivity|apply IH]. Qed.
Lemma file_stream : forall key ds k g i l, file_calls key ds k g i = Some l -> Forall (fun c => c_stream c = k) l.
Proof.
  intros key ds k g i l H. unfold file_calls in H. destruct (nth_error (g_files g) i); [|injection H as <-; constructor]. destruct (read_file key l0) as [[|fr frs]|]; [injection H as <-; constructor| |discriminate]. destruct (nth_error ds k) as [[au tb]|]; [|discriminate]. injection H as <-. change (add_samples k au tb true fr ++ flat_map (add_samples k au tb true) frs) with (flat_map (add_samples k au tb true) (fr :: frs)). induction (fr :: frs) as [|x y IH]; [constructor|]. cbn [flat_map]. apply Forall_app. split; [apply add_stream|exact IH].
Qed.
Lemma round_stream : forall key ds gs k0 i l, round key ds k0 gs i = Some l -> Forall (fun c => (k0 <= c_stream c < k0 + length gs)%nat) l.
Proof.
  intros key ds. induction gs as [|g gs IH]; intros k0 i l H; cbn [round] in H; [injection H as <-; constructor|]. destruct (file_calls key ds k0 g i) as [a|] eqn:Ea; [|discriminate]. destruct (round key ds (S k0) gs i) as [b|] eqn:Eb; [|discriminate]. assert (Q : l = a ++ b) by congruence. subst l. cbn [length]. apply Forall_app. split.
  - eapply Forall_impl; [|exact (file_stream _ _ _ _ _ _ Ea)]. cbv beta. intros c ->. lia.
  - eapply Forall_impl; [|exact (IH _ _ _ Eb)]. cbv beta. intros c Hc. lia.
Qed.
Lemma round_for : forall key ds gs k0 i l, round key ds k0 gs i = Some l -> forall j g, nth_error gs j = Some g -> file_calls key ds (k0 + j) g i = Some (for_stream (k0 + j) l).
Proof.
  intros key ds. induction gs as [|g0 gs IH]; intros k0 i l H j g Hj; [destruct j; discriminate|]. cbn [round] in H. destruct (file_calls key ds k0 g0 i) as [a|] eqn:Ea; [|discriminate]. destruct (round key ds (S k0) gs i) as [b|] eqn:Eb; [|discriminate]. assert (Q : l = a ++ b) by congruence. subst l. rewrite for_app. destruct j as [|j].
  - injection Hj as <-. rewrite Nat.add_0_r. rewrite (for_all _ a) by exact (file_stream _ _ _ _ _ _ Ea). rewrite (for_none _ b); [rewrite app_nil_r; exact Ea|]. eapply Forall_impl; [|exact (round_stream _ _ _ _ _ _ Eb)]. cbv beta. intros c Hc. lia.
  - rewrite (for_none _ a); [|eapply Forall_impl; [|exact (file_stream _ _ _ _ _ _ Ea)]; cbv beta; intros c ->; lia]. specialize (IH _ _ _ Eb j g Hj). replace (k0 + S j)%nat with (S k0 + j)%nat by lia. exact IH.
Qed.
Lemma round_some : forall key ds gs k0 i, (forall j g, nth_error gs j = Some g -> file_calls key ds (k0 + j) g i <> None) -> exists l, round key ds k0 gs i = Some l.
Proof.
  intros key ds. induction gs as [|g gs IH]; intros k0 i H; [eexists; reflexivity|]. cbn [round]. pose proof (H 0%nat g eq_refl) as H0. rewrite Nat.add_0_r in H0. destruct (file_calls key ds k0 g i); [|congruence]. destruct (IH (S k0) i) as (b & ->); [|eexists; reflexivity]. intros j g' Hj. specialize (H (S j) g' Hj). replace (S k0 + j)%nat with (k0 + S j)%nat by lia. exact H.
Qed.
Lemma rounds_some : forall key ds gs n i, (forall i' j g, nth_error gs j = Some g -> file_calls key ds j g i' <> None) -> exists l, rounds key ds gs n i = Some l.
Proof. intros key ds gs. induction n as [|n IH]; intros i H; [eexists; reflexivity|]. cbn [rounds]. destruct (round_some key ds gs 0 i) as (a & ->); [exact (H i)|]. destruct (IH (S i) H) as (b & ->). eexists; reflexivity. Qed.
Lemma rounds_stream : forall key ds gs n i l, rounds key ds gs n i = Some l -> Forall (fun c => (c_stream c < length gs)%nat) l.
Proof.
  intros key ds gs. induction n as [|n IH]; intros i l H; cbn [rounds] in H; [injection H as <-; constructor|]. destruct (round key ds 0 gs i) as [a|] eqn:Ea; [|discriminate]. destruct (rounds key ds gs n (S i)) as [b|] eqn:Eb; [|discriminate]. assert (Q : l = a ++ b) by congruence. subst l. apply Forall_app. split; [|exact (IH _ _ Eb)]. eapply Forall_impl; [|exact (round_stream _ _ _ _ _ _ Ea)]. cbv beta. intros c Hc. lia.
Qed.
(** per stream: the files from [i] on *)
Lemma rounds_for : forall key ds gs n i l, rounds key ds gs n i = Some l -> forall j g, nth_error gs j = Some g -> exists parts, length parts = n /\ (forall x p, nth_error parts x = Some p -> file_calls key ds j g (i + x) = Some p) /\ for_stream j l = concat parts.
Proof.
  intros key ds gs. induction n as [|n IH]; intros i l H j g Hj; cbn [rounds] in H; [injection H as <-; exists []; repeat split; intros x p Hx; destruct x; discriminate|]. destruct (round key ds 0 gs i) as [a|] eqn:Ea; [|discriminate]. destruct (rounds key ds gs n (S i)) as [b|] eqn:Eb; [|discriminate]. assert (Q : l = a ++ b) by congruence. subst l.
  destruct (IH _ _ Eb j g Hj) as (parts & P1 & P2 & P3). exists (for_stream j a :: parts). split; [cbn [length]; lia|]. split.
  - intros [|x] p Hx; [injection Hx as <-; rewrite Nat.add_0_r; exact (round_for _ _ _ _ _ _ Ea j g Hj)|]. cbn [nth_error] in Hx. replace (i + S x)%nat with (S i + x)%nat by lia. exact (P2 x p Hx).
  - rewrite for_app, P3. reflexivity.
Qed.
(** the files of an option, in order *)
Lemma files_for : forall key ds gs n l j g, rounds key ds gs n 0 = Some l -> nth_error gs j = Some g -> (length (g_files g) <= n)%nat ->
  exists frs, Forall2 (fun f fr => read_file key f = Some fr) (g_files g) frs /\ (forall au tb, nth_error ds j = Some (au, tb) -> for_stream j l = flat_map (add_samples j au tb true) (concat frs)) /\ (nth_error ds j = None -> concat frs = []).
Proof.
  intros key ds gs n l j g H Hj Ln. destruct (rounds_for _ _ _ _ _ _ H j g Hj) as (parts & P1 & P2 & P3). rewrite P3. clear H P3. cbn [Nat.add] in P2. subst n. unfold file_calls in P2. revert parts P2 Ln. generalize (g_files g). intros fs. induction fs as [|f fs IH]; intros parts P2 Ln.
  - exists []. split; [constructor|]. split; [|reflexivity]. intros au tb _. cbn [concat flat_map]. clear Ln. induction parts as [|p parts IH]; [reflexivity|]. pose proof (P2 0%nat p eq_refl) as H0. cbn [nth_error] in H0. injection H0 as <-. cbn [concat app]. apply IH. intros x q Hx. specialize (P2 (S x) q Hx). cbn [nth_error] in P2. destruct x; exact P2.
  - destruct parts as [|p parts]; [cbn [length] in Ln; lia|]. pose proof (P2 0%nat p eq_refl) as H0. cbn [nth_error] in H0. destruct (IH parts) as (frs & F1 & F2 & F3); [intros x q Hx; exact (P2 (S x) q Hx)|cbn [length] in Ln; lia|].
    destruct (read_file key f) as [fr|] eqn:Er; [|discriminate]. exists (fr :: frs). split; [constructor; assumption|]. split.
    + intros au tb Hd. cbn [concat]. rewrite flat_map_app, (F2 au tb Hd). f_equal. rewrite Hd in H0. destruct fr; [injection H0 as <-; reflexivity|]. assert (Q : p = flat_map (add_samples j au tb true) (l0 :: fr)) by congruence. exact Q.
    + intros Hd. rewrite Hd in H0. destruct fr; [|discriminate]. cbn [concat app]. exact (F3 Hd).
Qed.
Lemma given_prefix : forall n gs k g, (k < n)%nat -> (forall j, (j <= k)%nat -> exists gj, nth_error gs j = Some gj /\ g_files gj <> []) -> nth_error gs k = Some g -> nth_error (given n gs) k = Some g.
Proof.
  induction n as [|n IH]; intros gs k g Hk A Hg; [lia|]. destruct gs as [|g0 gs]; [destruct k; discriminate|]. destruct (A 0%nat ltac:(lia)) as (gj & G1 & G2). cbn [nth_error] in G1. injection G1 as <-. cbn [given]. destruct (g_files g0) eqn:Ef; [congruence|]. destruct k as [|k]; [exact Hg|]. cbn [nth_error] in Hg |- *. apply IH; [lia| |exact Hg]. intros j Hj. exact (A (S j) ltac:(lia)).
Qed.
Lemma given_all : forall n gs, (length gs <= n)%nat -> Forall (fun g => g_files g <> []) gs -> given n gs = gs.
Proof. induction n as [|n IH]; intros gs L F; [destruct gs; [reflexivity|cbn [length] in L; lia]|]. destruct gs as [|g gs]; [reflexivity|]. cbn [given]. pose proof (Forall_inv F) as F1. destruct (g_files g) eqn:E; [congruence|]. rewrite IH; [reflexivity|cbn [length] in L; lia|exact (Forall_inv_tail F)]. Qed.
Lemma list_max_ge : forall (l : list nat) x, In x l -> (x <= list_max l)%nat.
Proof. intros l x H. pose proof (proj1 (list_max_le l (list_max l)) (le_n _)) as F. exact (proj1 (Forall_forall _ _) F x H). Qed.
Lemma add_bodies : forall k au tb l first, map (fun c => s_body (c_sample c)) (add_samples k au tb first l) = map s_body l.
Proof. intros k au tb. induction l as [|s l IH]; intros first; [reflexivity|]. cbn [add_samples map c_sample s_body]. rewrite IH. reflexivity. Qed.
Lemma add_samples_map : forall k au tb l first, map c_sample (add_samples k au tb first l) = map (fun s => mkS (s_body s) (normal tb (s_comp s)) (normal tb (s_dec s)) (normal tb (s_dur s))) l.
Proof. intros k au tb. induction l as [|s l IH]; intros first; [reflexivity|]. cbn [add_samples map c_sample]. rewrite IH. reflexivity. Qed.
Lemma add_sync : forall k au tb l, map c_sync (add_samples k au tb true l) = if au then map (fun _ => true) l else first_only l.
Proof.
  intros k au tb l. assert (H : forall l, map c_sync (add_samples k au tb false l) = map (fun _ => au) l). { clear l. induction l as [|s l IH]; [reflexivity|]. cbn [add_samples map c_sync orb]. rewrite IH. reflexivity. }
  destruct l as [|s l]; [destruct au; reflexivity|]. cbn [add_samples map c_sync orb first_only]. rewrite H. destruct au; reflexivity.
Qed.
Lemma map_flat : forall {A B C} (f : B -> C) (g : A -> list B) l, map f (flat_map g l) = flat_map (fun x => map f (g x)) l.
Proof. intros A B C f g l. induction l as [|x l IH]; [reflexivity|]. cbn [flat_map]. rewrite map_app, IH. reflexivity. Qed.
Lemma flat_map_ext2 : forall {A B} (f g : A -> list B) l, (forall x, f x = g x) -> flat_map f l = flat_map g l.
Proof. intros A B f g l H. induction l as [|x l IH]; [reflexivity|]. cbn [flat_map]. rewrite H, IH. reflexivity. Qed.
(** what a stream gets *)
Theorem bodies_in_order : forall key gs calls, moof_mux key gs = Some calls -> forall k g, (k < 3)%nat -> (forall j, (j <= k)%nat -> exists gj, nth_error gs j = Some gj /\ g_files gj <> []) -> nth_error gs k = Some g ->
  exists frs, Forall2 (fun f fr => read_file key f = Some fr) (g_files g) frs /\ map (fun c => s_body (c_sample c)) (for_stream k calls) = map s_body (concat (concat frs)).
Proof.
  intros key gs calls H k g Hk A Hg. pose proof (given_prefix 3 gs k g Hk A Hg) as G. unfold moof_mux in H. cbv zeta in H. set (n := list_max _) in H. assert (Ln : (length (g_files g) <= n)%nat). { unfold n. apply list_max_ge. apply (in_map (fun g => length (g_files g))). exact (nth_error_In _ _ G). }
  destruct (files_for _ _ _ _ _ _ _ H G Ln) as (frs & F1 & F2 & F3). exists frs. split; [exact F1|]. destruct (nth_error (streams_found (given 3 gs)) k) as [[au tb]|] eqn:Ed.
  - rewrite (F2 _ _ eq_refl). rewrite map_flat. rewrite (flat_map_ext2 _ (fun x => map s_body x)) by (intros x; apply add_bodies). rewrite concat_map, <- flat_map_concat_map. reflexivity.
  - rewrite (F3 eq_refl). cbn [concat map]. destruct (rounds_for _ _ _ _ _ _ H k g G) as (parts & P1 & P2 & P3). rewrite P3. clear - F1 F3 P2 Ed. specialize (F3 eq_refl). cbn [Nat.add] in P2.
    assert (Hp : Forall (fun p => p = []) parts).
    { apply Forall_forall. intros p Hp. apply In_nth_error in Hp. destruct Hp as (x & Hx). specialize (P2 x p Hx). unfold file_calls in P2. destruct (nth_error (g_files g) x); [|congruence]. rewrite Ed in P2. destruct (read_file key l) as [[|]|]; congruence. }
    clear - Hp. induction Hp as [|p parts -> Hp IH]; [reflexivity|]. exact IH.
Qed.

(** ** sources written by the fragment writer *)
Lemma zero_mul : forall tb, dtrunc (dmul (ddiv (dbl 10000000) (dbl tb)) (dbl 0)) = 0.
Proof. intros tb. change (dbl 0) with (BinarySingleNaN.B754_zero false : double). destruct (ddiv (dbl 10000000) (dbl tb)) as [s|s| |s m e B]; reflexivity. Qed.
Lemma near_normal : forall tb t, 1 <= tb <= 2 ^ 32 -> in_range t -> near tb t (normal tb t).
Proof.
  intros tb t Ht (R1 & R2). unfold normal. destruct (tb =? 10000000) eqn:E; [apply Z.eqb_eq in E; subst tb; unfold near; lia|]. unfold normalize_time. change (2 ^ 51) with 2251799813685248 in R2. change (2 ^ 32) with 4294967296 in Ht. rewrite (u64_id t) by lia.
  destruct (Z.eq_dec t 0) as [->|Nt]; [|].
  - replace (dtrunc (dmul (ddiv (dbl 10000000) (dbl tb)) (dbl 0))) with 0; [change (u64 0) with 0; change (s64 0) with 0; unfold near; lia|].
    symmetry. apply zero_mul.
  - pose proof (muldiv 10000000 tb t) as M. cbv zeta in M. destruct M as (M1 & M2); [lia|lia|lia|lia|]. set (T := dtrunc _) in *. assert (T <= 10000000 * t) by nia. rewrite u64_id by lia. unfold s64. replace (T <? 2 ^ 63) with true by lia. unfold near. lia.
Qed.
Lemma source_group : forall scale s g, option_of scale s g -> g_files g <> [].
Proof. intros scale s g (_ & files & H & _). rewrite H. discriminate. Qed.
Lemma streams_sources : forall scale srcs gs, Forall2 (option_of scale) srcs gs -> streams_found gs = map (fun s => (src_audio s, src_scale s)) srcs.
Proof. intros scale srcs gs F. induction F as [|s g srcs gs (H & _) F IH]; [reflexivity|]. unfold streams_found in *. cbn [flat_map map]. rewrite H, IH. destruct (src_audio s); reflexivity. Qed.
Definition counted_fr (scale : Z -> Z -> Z) (fr : fragment) : list sample := let '(st, base, l) := fr in counted scale (timescale st) (0 <? first_flags st) base l.
Lemma source_files : forall scale key s g, option_of scale s g -> no_fragment (src_init s) -> Forall (Forall (fragment_ok scale key)) (src_files s) ->
  Forall2 (fun f fr => read_file key f = Some fr) (g_files g) ([] :: map (map (counted_fr scale)) (src_files s)).
Proof.
  intros scale key s g (_ & files & Hf & F) N A. rewrite Hf. constructor; [exact (init_file key _ N)|]. clear Hf. revert A. generalize dependent files. generalize (src_files s). intros l. induction l as [|frs l IH]; intros files F A; inversion F; subst; [constructor|]. cbn [map]. constructor; [|apply IH; [assumption|exact (Forall_inv_tail A)]].
  match goal with H : exists w, _ |- _ => destruct H as (w & W1 & W2 & W3) end. destruct (roundtrip scale key frs (Forall_inv A)) as (w' & W1' & W4). assert (w' = w) by congruence. subst w' y. exact (W4 W3).
Qed.
Lemma fn_unique : forall key fs a b, Forall2 (fun f fr => read_file key f = Some fr) fs a -> Forall2 (fun f fr => read_file key f = Some fr) fs b -> a = b.
Proof. intros key fs. induction fs as [|f fs IH]; intros a b A B; inversion A; inversion B; subst; [reflexivity|]. f_equal; [congruence|]. apply IH; assumption. Qed.
Lemma nth_map_src : forall srcs k s, nth_error srcs k = Some s -> nth_error (map (fun s => (src_audio s, src_scale s)) srcs) k = Some (src_audio s, src_scale s).
Proof. intros srcs k s H. rewrite (map_nth_error _ _ _ H). reflexivity. Qed.
Lemma Forall2_nth : forall {A B} (R : A -> B -> Prop) a b, Forall2 R a b -> forall k x, nth_error a k = Some x -> exists y, nth_error b k = Some y /\ R x y.
Proof. intros A B R a b F. induction F as [|x y a b H F IH]; intros k z Hz; [destruct k; discriminate|]. destruct k as [|k]; [injection Hz as <-; exists y; split; [reflexivity|exact H]|]. exact (IH k z Hz). Qed.
Lemma Forall2_nth_r : forall {A B} (R : A -> B -> Prop) a b, Forall2 R a b -> forall k y, nth_error b k = Some y -> exists x, nth_error a k = Some x /\ R x y.
Proof. intros A B R a b F. induction F as [|x y a b H F IH]; intros k z Hz; [destruct k; discriminate|]. destruct k as [|k]; [injection Hz as <-; exists x; split; [reflexivity|exact H]|]. exact (IH k z Hz). Qed.
Definition conv (tb : Z) (s : sample) : sample := mkS (s_body s) (normal tb (s_comp s)) (normal tb (s_dec s)) (normal tb (s_dur s)).
Lemma F2_length : forall {A B} (R : A -> B -> Prop) a b, Forall2 R a b -> length a = length b. Proof. intros A B R a b F. induction F; [reflexivity|]. cbn [length]. lia. Qed.
Lemma mux_sources : forall scale key srcs gs, (length srcs <= 3)%nat -> Forall2 (option_of scale) srcs gs -> Forall (source_ok scale key) srcs ->
  exists calls, moof_mux key gs = Some calls /\ rounds key (map (fun s => (src_audio s, src_scale s)) srcs) gs (list_max (map (fun g => length (g_files g)) gs)) 0 = Some calls /\ Forall (fun c => (c_stream c < length srcs)%nat) calls /\ forall k s, nth_error srcs k = Some s ->
    for_stream k calls = flat_map (add_samples k (src_audio s) (src_scale s) true) (map (counted_fr scale) (concat (src_files s))).
Proof.
  intros scale key srcs gs L F A. assert (Lg : length gs = length srcs) by (symmetry; exact (F2_length _ _ _ F)).
  assert (Hgv : given 3 gs = gs). { apply given_all; [lia|]. clear - F. induction F as [|s g srcs gs H F IH]; [constructor|]. constructor; [exact (source_group _ _ _ H)|exact IH]. }
  assert (HS : forall j g, nth_error gs j = Some g -> exists s, nth_error srcs j = Some s /\ option_of scale s g /\ Forall2 (fun f fr => read_file key f = Some fr) (g_files g) ([] :: map (map (counted_fr scale)) (src_files s))).
  { intros j g Hg. destruct (Forall2_nth_r _ _ _ F j g Hg) as (s & Hs & O). exists s. split; [exact Hs|]. split; [exact O|]. destruct (proj1 (Forall_forall _ _) A s (nth_error_In _ _ Hs)) as (N & B). exact (source_files _ _ _ _ O N B). }
  set (n := list_max (map (fun g => length (g_files g)) gs)). set (ds := map (fun s => (src_audio s, src_scale s)) srcs).
  destruct (rounds_some key ds gs n 0) as (calls & HC).
  { intros i' j g Hg. destruct (HS j g Hg) as (s & Hs & O & R). unfold file_calls. destruct (nth_error (g_files g) i') as [f|] eqn:Ef; [|discriminate]. destruct (Forall2_nth _ _ _ R i' f Ef) as (fr & _ & Rf). rewrite Rf. destruct fr; [discriminate|]. unfold ds. rewrite (nth_map_src _ _ _ Hs). discriminate. }
  exists calls. split; [unfold moof_mux; cbv zeta; rewrite Hgv, (streams_sources _ _ _ F); exact HC|]. split; [exact HC|]. split; [rewrite <- Lg; exact (rounds_stream _ _ _ _ _ _ HC)|].
  intros k s Hs. destruct (Forall2_nth _ _ _ F k s Hs) as (g & Hg & O). destruct (HS k g Hg) as (s' & Hs' & _ & R). assert (s' = s) by congruence. subst s'.
  assert (Ln : (length (g_files g) <= n)%nat). { unfold n. apply list_max_ge. apply (in_map (fun g => length (g_files g))). exact (nth_error_In _ _ Hg). }
  destruct (files_for _ _ _ _ _ _ _ HC Hg Ln) as (frs & F1 & F2 & _). rewrite (F2 _ _ (nth_map_src _ _ _ Hs)). rewrite (fn_unique _ _ _ _ F1 R). cbn [concat app]. rewrite concat_map. reflexivity.
Qed.

(** ** turns *)
Lemma counted_length : forall scale fr, length (counted_fr scale fr) = length (snd fr).
Proof. intros scale [[st base] l]. unfold counted_fr. cbn [snd]. revert base. induction l as [|s l IH]; intros base; [reflexivity|]. cbn [counted length]. rewrite IH. reflexivity. Qed.
Lemma add_length : forall k au tb l first, length (add_samples k au tb first l) = length l.
Proof. intros. rewrite <- (map_length c_sample), add_samples_map, map_length. reflexivity. Qed.
Lemma streams_repeat : forall k l, Forall (fun c => c_stream c = k) l -> map c_stream l = repeat k (length l).
Proof. intros k l F. induction F as [|c l H F IH]; [reflexivity|]. cbn [map length repeat]. rewrite H, IH. reflexivity. Qed.
Lemma frs_length : forall scale k au tb frs, length (flat_map (add_samples k au tb true) (map (counted_fr scale) frs)) = length (concat (map snd frs)).
Proof. intros scale k au tb. induction frs as [|fr frs IH]; [reflexivity|]. cbn [map flat_map concat]. rewrite !app_length, add_length, counted_length, IH. reflexivity. Qed.
Lemma file_turn : forall scale key ds k s g i l, option_of scale s g -> source_ok scale key s -> file_calls key ds k g i = Some l -> map c_stream l = repeat k (length (concat (map snd (nth i ([] :: src_files s) [])))).
Proof.
  intros scale key ds k s g i l O (N & B) H. rewrite (streams_repeat k l) by exact (file_stream _ _ _ _ _ _ H). f_equal. pose proof (source_files _ _ _ _ O N B) as R. unfold file_calls in H.
  assert (E : [] :: map (map (counted_fr scale)) (src_files s) = map (map (counted_fr scale)) ([] :: src_files s)) by reflexivity. rewrite E in R.
  destruct (nth_error (g_files g) i) as [f|] eqn:Ef.
  - destruct (Forall2_nth _ _ _ R i f Ef) as (fr & Hf & Rf). rewrite Rf in H. rewrite nth_error_map in Hf. destruct (nth_error ([] :: src_files s) i) as [frs|] eqn:Es; [|discriminate]. injection Hf as <-. rewrite (nth_error_nth _ _ [] Es). destruct frs as [|fr0 frs]; [injection H as <-; reflexivity|]. cbn [map] in H. destruct (nth_error ds k) as [[au tb]|]; [|discriminate].
    match type of H with Some ?x = _ => assert (Q : l = x) by congruence end. subst l. rewrite <- (frs_length scale k au tb). reflexivity.
  - injection H as <-. rewrite nth_overflow; [reflexivity|]. apply nth_error_None in Ef. rewrite (F2_length _ _ _ R), map_length in Ef. exact Ef.
Qed.
Lemma round_turn : forall scale key ds srcs gs, Forall2 (option_of scale) srcs gs -> Forall (source_ok scale key) srcs -> forall k i l, round key ds k gs i = Some l -> map c_stream l = turn i k srcs.
Proof.
  intros scale key ds srcs gs F. induction F as [|s g srcs gs O F IH]; intros A k i l H; cbn [round] in H; [injection H as <-; reflexivity|]. destruct (file_calls key ds k g i) as [a|] eqn:Ea; [|discriminate]. destruct (round key ds (S k) gs i) as [b|] eqn:Eb; [|discriminate]. assert (Q : l = a ++ b) by congruence. subst l. cbn [turn]. rewrite map_app, (file_turn _ _ _ _ _ _ _ _ O (Forall_inv A) Ea), (IH (Forall_inv_tail A) _ _ _ Eb). reflexivity.
Qed.
Lemma rounds_turn : forall scale key ds srcs gs, Forall2 (option_of scale) srcs gs -> Forall (source_ok scale key) srcs -> forall n i l, rounds key ds gs n i = Some l -> map c_stream l = concat (map (fun i => turn i 0 srcs) (seq i n)).
Proof.
  intros scale key ds srcs gs F A. induction n as [|n IH]; intros i l H; cbn [rounds] in H; [injection H as <-; reflexivity|]. destruct (round key ds 0 gs i) as [a|] eqn:Ea; [|discriminate]. destruct (rounds key ds gs n (S i)) as [b|] eqn:Eb; [|discriminate]. assert (Q : l = a ++ b) by congruence. subst l. cbn [seq map concat]. rewrite map_app, (round_turn _ _ _ _ _ F A _ _ _ Ea), (IH _ _ Eb). reflexivity.
Qed.
(** ** the statements *)
Lemma first_only_length : forall {A B} (a : list A) (b : list B), length a = length b -> first_only a = first_only b.
Proof. intros A B a b H. destruct a, b; try discriminate; [reflexivity|]. cbn [first_only]. f_equal. cbn [length] in H. injection H as H. revert b0 H. induction a0 as [|x a0 IH]; intros [|y b0] H; try discriminate; [reflexivity|]. cbn [map]. f_equal. apply IH. cbn [length] in H. lia. Qed.
Lemma const_length : forall {A B} (a : list A) (b : list B), length a = length b -> map (fun _ => true) a = map (fun _ => true) b.
Proof. intros A B a. induction a as [|x a IH]; intros [|y b] H; try discriminate; [reflexivity|]. cbn [map]. f_equal. apply IH. cbn [length] in H. lia. Qed.
Theorem mux_all : forall scale key srcs gs, (length srcs <= 3)%nat -> Forall2 (option_of scale) srcs gs -> Forall (source_ok scale key) srcs ->
  exists calls, moof_mux key gs = Some calls /\ (exists n, (forall s, In s srcs -> (length (src_files s) < n)%nat) /\ map c_stream calls = concat (map (fun i => turn i 0 srcs) (seq 0 n)))
    /\ forall k s, nth_error srcs k = Some s -> map c_sync (for_stream k calls) = sync_of s
       /\ map c_sample (for_stream k calls) = map (conv (src_scale s)) (concat (map (counted_fr scale) (concat (src_files s)))).
Proof.
  intros scale key srcs gs L F A. destruct (mux_sources scale key srcs gs L F A) as (calls & H1 & H2 & H3 & H4). exists calls. split; [exact H1|]. split.
  { eexists. split; [|exact (rounds_turn _ _ _ _ _ F A _ _ _ H2)]. intros s Hs. apply In_nth_error in Hs. destruct Hs as (k & Hs). destruct (Forall2_nth _ _ _ F k s Hs) as (g & Hg & (_ & files & O1 & O2)). assert (length (g_files g) <= list_max (map (fun g => length (g_files g)) gs))%nat. { apply list_max_ge. apply (in_map (fun g => length (g_files g))). exact (nth_error_In _ _ Hg). } rewrite O1 in H. cbn [length] in H. rewrite <- (F2_length _ _ _ O2) in H. lia. }
  intros k s Hs. rewrite (H4 k s Hs). split.
  - rewrite map_flat. unfold sync_of. generalize (concat (src_files s)). intros frs. induction frs as [|fr frs IH]; [reflexivity|]. cbn [map flat_map concat]. rewrite IH. f_equal. rewrite add_sync. destruct (src_audio s); [apply const_length|apply first_only_length]; apply counted_length.
  - rewrite map_flat. rewrite (flat_map_ext2 _ (fun l => map (conv (src_scale s)) l)) by (intros l; apply add_samples_map). rewrite flat_map_concat_map. symmetry. apply concat_map.
Qed.
