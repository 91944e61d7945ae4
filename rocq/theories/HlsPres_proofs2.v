(** Lemmas on the HLS presentation: playlists and segments together; encryption. *)
From Coq Require Import String ZifyNat Permutation.
From Verif Require Import Util Dec_spec Dec_lemmas Str_model Str_proofs Mpd_model Mpd_proofs Points_model Points_proofs Points_proofs2 Hls_model Hls_proofs HlsCrypt_model HlsCrypt_proofs HlsCrypt_props Pres_model Pres_proofs Pres_proofs2 Pres_proofs3 Pres_proofs4 Pres_proofs5 HlsPres_model HlsPres_proofs.
Local Open Scope Z_scope.
Local Ltac Zify.zify_post_hook ::= Z.div_mod_to_equations.

Definition acall (c : call) : Prop := match c with BeginAudio _ | Point _ _ => True | _ => False end.
Lemma points_calls pts : map (fun q => Point (p_time q) (p_dur q)) pts = map (fun q => Point (fst q) (snd q)) (segs pts).
Proof. unfold segs. rewrite map_map. reflexivity. Qed.
Lemma audio_calls A : Forall ready A -> Forall (fun s => n_audio s = true) A -> exists l, all_some (map strm_calls A) = Some l /\ Forall acall (concat l).
Proof.
  induction A as [|s A IH]; intros R F; [exists []; split; [reflexivity|constructor]|]. destruct (IH (Forall_inv_tail R) (Forall_inv_tail F)) as (l & E & C). destruct (Forall_inv R) as (_ & _ & _ & _ & pts & P & _).
  pose proof (Forall_inv F) as Ea. cbv beta in Ea. cbn [map all_some]. unfold strm_calls at 1. rewrite P, Ea, E. eexists. split; [reflexivity|]. cbn [concat]. apply Forall_app. split; [|exact C].
  constructor; [exact Logic.I|]. apply Forall_map. apply Forall_forall. intros q _. exact Logic.I.
Qed.
Lemma all_some_app {A} (a b : list (option A)) x y : all_some a = Some x -> all_some b = Some y -> all_some (a ++ b) = Some (x ++ y).
Proof.
  revert x. induction a as [|[v|] a IH]; intros x E F; cbn [all_some app] in *; [injection E as <-; exact F| |discriminate]. destruct (all_some a) as [t|]; [|discriminate]. injection E as <-. rewrite (IH t eq_refl F). reflexivity.
Qed.
Lemma all_some_fun {A B} (f : A -> option B) (g : A -> B) l : (forall x, In x l -> f x = Some (g x)) -> all_some (map f l) = Some (map g l).
Proof. induction l as [|x l IH]; intros H; [reflexivity|]. cbn [map all_some]. rewrite (H x (or_introl eq_refl)), IH by (intros y Y; apply H; right; exact Y). reflexivity. Qed.
Lemma find_rate l r : NoDup (map r_rate l) -> In r l -> List.find (fun x => fst x =? r_rate r) (rev (map (fun r => (r_rate r, list_name (r_rate r))) l)) = Some (r_rate r, list_name (r_rate r)).
Proof.
  intros N I. destruct (List.find (fun x => fst x =? r_rate r) (rev (map (fun r => (r_rate r, list_name (r_rate r))) l))) as [x|] eqn:E.
  - apply find_some in E. destruct E as (J & Q). apply in_rev in J. apply in_map_iff in J. destruct J as (r' & <- & J). cbn [fst] in Q. apply Z.eqb_eq in Q. rewrite Q. reflexivity.
  - exfalso. assert (J : In (r_rate r, list_name (r_rate r)) (rev (map (fun r => (r_rate r, list_name (r_rate r))) l))) by (apply in_rev; rewrite rev_involutive; apply in_map_iff; exists r; split; [reflexivity|exact I]).
    pose proof (find_none _ _ E _ J) as Q. cbn [fst] in Q. rewrite Z.eqb_refl in Q. discriminate.
Qed.
Lemma file_found files n t : NoDup (map fst files) -> In (n, t) files -> file_of files n = Some t.
Proof.
  intros N I. unfold file_of. destruct (List.find (fun f => same_text (fst f) n) (rev files)) as [x|] eqn:E.
  - apply find_some in E. destruct E as (J & Q). apply in_rev in J. apply same_text_eq in Q. cbn [option_map]. f_equal. clear - N I J Q. destruct x as [a b]. cbn [fst snd] in *. subst a.
    induction files as [|[u v] files IH]; [destruct I|]. cbn [map fst] in N. inversion N as [|? ? NI N']; subst. destruct I as [I|I], J as [J|J].
    + congruence.
    + exfalso. apply NI. assert (u = n) by congruence. subst u. apply in_map_iff. exists (n, b). split; [reflexivity|exact J].
    + exfalso. apply NI. assert (u = n) by congruence. subst u. apply in_map_iff. exists (n, t). split; [reflexivity|exact I].
    + apply IH; assumption.
  - exfalso. assert (J : In (n, t) (rev files)) by (apply in_rev; rewrite rev_involutive; exact I). pose proof (find_none _ _ E _ J) as Q. cbn [fst] in Q. rewrite (proj2 (same_text_eq _ _) eq_refl) in Q. discriminate.
Qed.
Lemma list_name_inj a b : 0 <= a -> 0 <= b -> list_name a = list_name b -> a = b.
Proof. intros A B E. unfold list_name in E. apply app_inv_head in E. apply app_inv_tail in E. apply dec_inj in E; assumption. Qed.

(** the numbers given for encryption *)
Lemma numbered_fst l : forall k, map fst (numbered_from k l) = l.
Proof. induction l as [|t l IH]; intros k; [reflexivity|]. cbn [numbered_from map fst]. rewrite IH. reflexivity. Qed.
Lemma numbered_nth l : forall k i t n, nth_error (numbered_from k l) i = Some (t, n) -> n = (k + Z.of_nat i + 1) mod 256.
Proof.
  induction l as [|u l IH]; intros k [|i] t n E; cbn [numbered_from nth_error] in E; try discriminate.
  - assert (Q : n = (k + 1) mod 256) by congruence. rewrite Q. f_equal. lia.
  - rewrite (IH _ _ _ _ E). lia.
Qed.
Lemma only_one {A B} (f : A -> list B) a s q : Permutation q (a ++ [s]) -> Forall (fun x => f x = []) a -> flat_map f q = f s.
Proof.
  intros P F. assert (I : In s q) by (apply (Permutation_in _ (Permutation_sym P)); apply in_or_app; right; left; reflexivity). apply in_split in I. destruct I as (q1 & q2 & ->).
  assert (Q : Permutation (q1 ++ q2) a) by (apply (Permutation_cons_inv (a := s)); rewrite Permutation_middle, P; symmetry; apply Permutation_cons_append).
  assert (Z0 : forall x, In x (q1 ++ q2) -> f x = []) by (intros x X; apply (Permutation_in _ Q) in X; rewrite Forall_forall in F; apply F; exact X).
  assert (N : forall l, (forall x, In x l -> In x (q1 ++ q2)) -> flat_map f l = []).
  { induction l as [|x l IH]; intros H; [reflexivity|]. cbn [flat_map]. rewrite (Z0 x (H x (or_introl eq_refl))), IH by (intros y Y; apply H; right; exact Y). reflexivity. }
  rewrite flat_map_app. cbn [flat_map]. rewrite (N q1), (N q2), app_nil_r by (intros x X; apply in_or_app; tauto). reflexivity.
Qed.

Definition published (key : option (list Z)) (A : list strm) (s : strm) (pts : list (Z * Z)) : list (list Z * list Z) :=
  (str "main.m3u8", flat_map (fun l => l ++ [10]) ([str "#EXTM3U"; str "#EXT-X-VERSION:3"] ++ flat_map (fun r => [inf_line (last (map r_rate (flat_map n_reps A)) 96000) r; list_name (r_rate r)]) (n_reps s)))
  :: match key with Some k => [(str "hls3.key", k)] | None => [] end
  ++ map (fun r => (list_name (r_rate r), flat_map (fun l => l ++ CRLF) (body_lines (match key with Some _ => true | None => false end) (r_rate r) (hd (0, 0) pts) (tl pts)))) (n_reps s).
Lemma published_nodup key A s pts : rates_ok (n_reps s) -> NoDup (map fst (published key A s pts)).
Proof.
  intros (N & F). unfold published. cbn [map fst]. rewrite map_app, map_map. cbn [fst].
  assert (L : forall n, (forall r, list_name r <> n) -> ~ In n (map (fun r => list_name (r_rate r)) (n_reps s))) by (intros n H X; apply in_map_iff in X; destruct X as (r & E & _); exact (H _ E)).
  assert (M : forall r, list_name r <> str "main.m3u8") by (intros r E; discriminate E). assert (K : forall r, list_name r <> str "hls3.key") by (intros r E; discriminate E).
  assert (D : NoDup (map (fun r => list_name (r_rate r)) (n_reps s))).
  { clear - N F. induction (n_reps s) as [|r l IH]; [constructor|]. cbn [map] in *. inversion N as [|? ? NI N']; subst. constructor; [|apply IH; [exact N'|exact (Forall_inv_tail F)]].
    intros X. apply in_map_iff in X. destruct X as (r' & E & I). apply NI. rewrite Forall_forall in F. apply list_name_inj in E; [rewrite <- E; apply in_map; exact I|apply (F r' (or_intror I))|apply (F r (or_introl eq_refl))]. }
  destruct key; cbn [map app fst]; [constructor; [intros [X|X]; [discriminate X|exact (L _ M X)]|constructor; [exact (L _ K)|exact D]]|constructor; [exact (L _ M)|exact D]].
Qed.
Lemma written_is key p A s : p = A ++ [s] -> Forall (fun x => n_audio x = true) A -> n_audio s = false -> n_name s = str "video" ->
  Permutation (map n_id p) (zupto 0 (length p)) -> Forall strm_ok p -> (2 <= length (n_points s))%nat -> Forall (fun r => r_rate r + last (map r_rate (flat_map n_reps A)) 96000 < 2 ^ 31) (n_reps s) ->
  exists off pts, text_files key p = Some (published key A s pts) /\ map fst pts = all_but_last (n_points (moved off s)) /\ pts <> [] /\ Forall pt_ok pts
  /\ segment_files p = Some (strm_segments (moved off s)) /\ 0 <= last (map r_rate (flat_map n_reps A)) 96000.
Proof.
  intros Ep FA V N H F L2 RS. set (audio := last (map r_rate (flat_map n_reps A)) 96000) in *.
  assert (NE : p <> []) by (rewrite Ep; destruct A; discriminate).
  destruct (manifest_is [] [] p (Forall_nil _) (Forall_nil _) NE H F) as (off & _ & _ & _ & _ & _ & E & _ & _ & _ & R & _ & _ & O).
  assert (Em : map (moved off) p = map (moved off) A ++ [moved off s]) by (rewrite Ep, map_app; reflexivity).
  assert (Is : In s p) by (rewrite Ep; apply in_or_app; right; left; reflexivity).
  assert (FA' : Forall (fun x => n_audio x = true) (map (moved off) A)) by (apply Forall_map; exact FA).
  rewrite Em in R. apply Forall_app in R. destruct R as (RA & Rs). apply Forall_inv in Rs. destruct Rs as (_ & _ & _ & _ & pts & P & PO).
  destruct (audio_calls _ RA FA') as (l & El & Cl).
  assert (A0 : 0 <= audio).
  { assert (X : Forall (fun a => 0 <= a) (map r_rate (flat_map n_reps A))).
    { apply Forall_map. apply Forall_forall. intros r I. apply in_flat_map in I. destruct I as (x & X & I). rewrite Forall_forall in F. assert (Ix : In x p) by (rewrite Ep; apply in_or_app; left; exact X). destruct (F x Ix) as (_ & (_ & G) & _). rewrite Forall_forall in G. apply G. exact I. }
    unfold audio. clear - X. assert (Y : forall l d, 0 <= d -> Forall (fun a => 0 <= a) l -> 0 <= last l d) by (induction l as [|a l IH]; intros d D G; [exact D|destruct l as [|b l]; [exact (Forall_inv G)|exact (IH d D (Forall_inv_tail G))]]). apply (Y _ 96000); [lia|exact X]. }
  assert (RO : rates_ok (n_reps s)) by (rewrite Forall_forall in F; apply (F s Is)).
  assert (RK : Forall (rate_ok audio) (n_reps s)).
  { destruct RO as (_ & G). apply Forall_forall. intros r I. rewrite Forall_forall in G, RS. split; [apply G; exact I|apply RS; exact I]. }
  assert (B0 : exists s0, by_id (map (moved off) p) 0 = Some s0).
  { assert (X : In 0 (map n_id p)) by (apply (Permutation_in _ (Permutation_sym H)); destruct p; [contradiction|left; reflexivity]). apply in_map_iff in X. destruct X as (s' & E0 & I). exists (moved off s'). rewrite <- E0. change (n_id s') with (n_id (moved off s')).
    apply by_id_found; [|apply in_map; exact I]. rewrite map_map. cbn [moved n_id]. apply (Permutation_NoDup (Permutation_sym H)). apply zupto_nodup. }
  destruct B0 as (s0 & B0).
  assert (PN : segs pts <> []).
  { intros X. pose proof (render_all_but_last _ _ P) as Y. rewrite X in Y. cbn [map] in Y. assert (Ln : length (n_points (moved off s)) = length (n_points s)).
    { destruct (rebase_pres_is p H) as (off' & E' & M'); [eapply Forall_impl; [|exact F]; intros x Hx; apply Hx|]. rewrite E in E'. assert (Q : map (moved off) p = map (moved off') p) by congruence.
      assert (Q2 : moved off s = moved off' s) by (clear - Q Is; induction p as [|x p IH]; [destruct Is|]; cbn [map] in Q; destruct Is as [->|Is]; [congruence|apply IH; [exact Is|congruence]]). rewrite Q2. destruct (M' s Is) as (M1 & _). rewrite M1. apply map_length. }
    destruct (n_points (moved off s)) as [|[a b] [|[c d] m]]; cbn [length] in Ln; try lia. discriminate Y. }
  exists off, (segs pts). split; [|split; [exact (eq_sym (eq_sym (render_all_but_last _ _ P)))|split; [exact PN|split; [exact PO|split; [|exact A0]]]]].
  - unfold text_files. rewrite E. unfold hls_of. rewrite B0. set (enc := match key with Some _ => true | None => false end).
    assert (Ec : strm_calls (moved off s) = Some (BeginVideo (str "video") :: map (fun q => Point (fst q) (snd q)) (segs pts))) by (unfold strm_calls; rewrite P; cbn [moved n_audio n_name]; rewrite V, N, points_calls; reflexivity).
    rewrite Em, map_app, (all_some_app _ _ l [BeginVideo (str "video") :: map (fun q => Point (fst q) (snd q)) (segs pts)] El) by (cbn [map all_some]; rewrite Ec; reflexivity).
    cbn [option_map]. rewrite concat_app. cbn [concat]. rewrite app_nil_r, <- app_assoc, <- app_comm_cons.
    assert (Er : root_of (map (moved off) A ++ [moved off s]) = mkRoot audio (str "video") (flat_map (fun l => l ++ [10]) ([str "#EXTM3U"; str "#EXT-X-VERSION:3"] ++ flat_map (fun r => [inf_line audio r; list_name (r_rate r)]) (n_reps s)))
      (map r_rate (n_reps s)) (rev (map (fun r => (r_rate r, list_name (r_rate r))) (n_reps s)))).
    { assert (Ea : flat_map n_reps (map (moved off) A) = flat_map n_reps A) by (clear; induction A as [|x A IH]; [reflexivity|cbn [map flat_map moved n_reps]; rewrite IH; reflexivity]).
      pose proof (root_is (map (moved off) A) (moved off s)) as Q. cbv zeta in Q. rewrite Ea in Q. fold audio in Q. apply Q; try assumption.
      apply Forall_map. apply Forall_forall. intros x X. cbn [moved n_audio n_reps]. rewrite Forall_forall in FA, F. split; [apply FA; exact X|]. assert (Ix : In x p) by (rewrite Ep; apply in_or_app; left; exact X). apply (F x Ix). }
    rewrite Er. cbn [o_rates o_text]. rewrite map_map.
    destruct (segs pts) as [|p0 ps] eqn:Es; [contradiction|].
    rewrite (all_some_fun _ (fun r => (list_name (r_rate r), flat_map (fun l => l ++ CRLF) (body_lines enc (r_rate r) p0 ps)))); [reflexivity|].
    intros r I. unfold playlist_file. cbn [o_names]. rewrite (find_rate _ r (proj1 RO) I). rewrite Forall_forall in RK. destruct (RK r I) as (R1 & R2). rewrite signed_nonneg by exact R1.
    rewrite body_text; [reflexivity|exact Cl|exact PO|exact R1].
  - unfold segment_files. rewrite E. assert (H' : Permutation (map n_id (map (moved off) p)) (zupto 0 (length (map (moved off) p)))) by (rewrite map_map, map_length; exact H).
    destruct (in_turn_perm _ H') as (q & Eq & Pq). rewrite Eq. cbn [option_map]. f_equal. apply (only_one _ (map (moved off) A)); [rewrite <- Em; exact Pq|]. eapply Forall_impl; [|exact FA']. intros x X. cbv beta in X. unfold strm_segments. rewrite X. reflexivity.
Qed.
Lemma segment_names s : n_audio s = false -> map fst (strm_segments s) = flat_map (fun r => map (fun t => seg_name (r_rate r) t) (all_but_last (n_points s))) (n_reps s).
Proof.
  intros V. unfold strm_segments. rewrite V. induction (n_reps s) as [|r l IH]; [reflexivity|]. cbn [flat_map]. rewrite map_app, IH, map_map. f_equal. cbn [fst].
  rewrite <- (numbered_fst (all_but_last (n_points s)) 0) at 2. rewrite map_map. reflexivity.
Qed.
Lemma playlists_resolve key p A s : p = A ++ [s] -> Forall (fun x => n_audio x = true) A -> n_audio s = false -> n_name s = str "video" ->
  Permutation (map n_id p) (zupto 0 (length p)) -> Forall strm_ok p -> (2 <= length (n_points s))%nat -> Forall (fun r => r_rate r + last (map r_rate (flat_map n_reps A)) 96000 < 2 ^ 31) (n_reps s) ->
  exists files segments main texts, text_files key p = Some files /\ segment_files p = Some segments /\ NoDup (map fst files)
  /\ file_of files (str "main.m3u8") = Some main /\ map (file_of files) (uris main) = map Some texts /\ flat_map uris texts = map fst segments.
Proof.
  intros Ep FA V N H F L2 RS. destruct (written_is key p A s Ep FA V N H F L2 RS) as (off & pts & T & PT & PN & PO & S & A0). set (audio := last (map r_rate (flat_map n_reps A)) 96000) in *.
  assert (Is : In s p) by (rewrite Ep; apply in_or_app; right; left; reflexivity). rewrite Forall_forall in F. destruct (F s Is) as (_ & RO & _ & By).
  pose proof (published_nodup key A s pts RO) as ND.
  assert (RK : Forall (rate_ok audio) (n_reps s)).
  { destruct RO as (_ & G). apply Forall_forall. intros r I. rewrite Forall_forall in G, RS. split; [apply G; exact I|apply RS; exact I]. }
  eexists. eexists. eexists. exists (map (fun r => flat_map (fun l => l ++ CRLF) (body_lines (match key with Some _ => true | None => false end) (r_rate r) (hd (0, 0) pts) (tl pts))) (n_reps s)).
  split; [exact T|]. split; [exact S|]. split; [exact ND|]. split; [apply file_found; [exact ND|left; reflexivity]|]. fold audio. split.
  - rewrite uris_lf.
    + rewrite filter_app, main_uris. cbn [app]. change (filter uri_line [str "#EXTM3U"; str "#EXT-X-VERSION:3"]) with (@nil (list Z)). cbn [app]. rewrite !map_map. apply map_ext_in. intros r I. apply file_found; [exact ND|].
      right. apply in_or_app. right. apply in_map_iff. exists r. split; [reflexivity|exact I].
    + apply Forall_app. split; [constructor; [split; notin|constructor; [split; notin|constructor]]|]. apply main_lines_no; assumption.
  - rewrite (segment_names (moved off s) V), <- PT. cbn [moved n_reps]. destruct pts as [|p0 ps]; [contradiction|]. cbn [hd tl].
    rewrite flat_map_concat_map, map_map, <- flat_map_concat_map. rewrite !flat_map_concat_map. f_equal. apply map_ext_in. intros r I. rewrite Forall_forall in RK. destruct (RK r I) as (R1 & _).
    rewrite uris_crlf by (apply body_lines_no10; assumption). rewrite body_uris. rewrite map_map. reflexivity.
Qed.
