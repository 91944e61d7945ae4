(** Lemmas on filling a presentation: the whole history. *)
From Coq Require Import String ZifyNat.
From Verif Require Import Util Points_model Points_proofs Points_proofs2 Pres_model Pres_proofs3 Smooth_model Smooth_proofs Fill_model Fill_proofs.
Local Open Scope Z_scope.

Lemma add_files_all l : forall s s', add_files s l = Some s' -> forall it, In it l -> exists b, get (rate_of (f_audio s) it) (f_rates s) = Some (Some b).
Proof.
  induction l as [|it l IH]; intros s s' E it2 I; [destruct I|]. cbn [add_files] in E. destruct (add_file s it) as [s1|] eqn:A; [|discriminate E]. unfold add_file in A. destruct (get (rate_of (f_audio s) it) (f_rates s)) as [[b|]|] eqn:G; try discriminate A.
  destruct I as [<-|I]; [exists b; exact G|]. assert (Q : s1 = with_rates s (put (rate_of (f_audio s) it) (Some (mkBr (b_private b) (b_width b) (b_height b) (add_path (b_paths b) (current_end s) (it_path it)))) (f_rates s))) by congruence. subst s1.
  destruct (IH _ _ E it2 I) as (b2 & G2). cbn [with_rates f_audio f_rates] in G2. destruct (Z.eq_dec (rate_of (f_audio s) it2) (rate_of (f_audio s) it)) as [Q|NE]; [rewrite Q; exists b; exact G|]. rewrite get_put_other in G2 by exact NE. exists b2. exact G2.
Qed.
Lemma file_of_in a r l it : file_of a r l = Some it -> In it l /\ rate_of a it = r.
Proof. intros F. apply find_some in F. destruct F as (I & Q). split; [exact I|]. apply Z.eqb_eq in Q. exact Q. Qed.
Lemma file_of_some a l it : In it l -> exists it', file_of a (rate_of a it) l = Some it'.
Proof. intros I. destruct (file_of a (rate_of a it) l) as [x|] eqn:F; [exists x; reflexivity|]. exfalso. pose proof (find_none _ _ F it I) as N. cbv beta in N. change (if a then it_audio it else it_rate it) with (rate_of a it) in N. rewrite Z.eqb_refl in N. discriminate N. Qed.
(** * the first group *)
Definition made (s : fstrm) (l : list item) (r : Z) (b : bitrate) : Prop :=
  match l with
  | [] => False
  | h :: t => (rate_of (f_audio s) h = r /\ b_private b = f_private s /\ b_width b = f_width s /\ b_height b = f_height s)
    \/ (f_audio s = false /\ exists it, In it t /\ it_rate it = r /\ it_visual it (f_id s) = Some (b_private b, b_width b, b_height b))
  end.
Lemma begin_first s l s1 : fresh s -> begin_processing true s l = Some s1 -> sorted (f_rates s1) /\ f_end s1 = 0 /\ f_audio s1 = f_audio s /\ f_id s1 = f_id s /\ f_name s1 = f_name s /\ i_points (f_index s1) = [] /\ i_cross (f_index s1) = [] /\
  (forall r it, file_of (f_audio s) r l = Some it -> exists b, get r (f_rates s1) = Some (Some b) /\ b_paths b = [(0, it_path it)] /\ made s l r b) /\
  (forall r, file_of (f_audio s) r l = None -> get r (f_rates s1) = None).
Proof.
  intros (R0 & I0 & E0) E. unfold begin_processing in E. destruct (add_rates s l) as [s0|] eqn:A; [|discriminate E].
  destruct l as [|h t].
  - cbn [add_rates] in A. cbn [add_group] in E. assert (Q : s1 = s) by congruence. subst s1. rewrite R0, I0, E0. repeat split; try reflexivity. intros r it F. discriminate F.
  - cbn [add_rates] in A. destruct (add_rest_ok t _ _ A) as (S1 & S2 & S3 & S4 & S5 & S6). cbn [with_rates f_rates f_audio f_id] in *. rewrite R0 in *. cbn [put] in *.
    destruct (add_group_ok _ _ _ E) as (s2 & F1 & F2 & F3 & F4 & F5 & F6 & F7 & F8). destruct (add_files_ok _ _ _ F1) as (_ & G2 & G3). rewrite S1 in F3, F4, F5, F6, F7, F8. cbn [with_rates f_end f_audio f_id f_name f_index] in F3, F4, F5, F6, F7, F8. rewrite I0 in F7, F8. rewrite E0 in F3.
    split; [rewrite F2; apply G2, S2; split; [constructor|exact Logic.I]|]. split; [exact F3|]. split; [exact F4|]. split; [exact F5|]. split; [exact F6|]. split; [exact F7|]. split; [exact F8|].
    assert (AU : f_audio s0 = f_audio s) by (rewrite S1; reflexivity). assert (CE : current_end s0 = 0) by (unfold current_end; rewrite S1; cbn [with_rates f_end f_index]; rewrite I0, E0; reflexivity).
    assert (ENT : forall r b, get r (f_rates s0) = Some b -> exists b', b = Some b' /\ b_paths b' = [] /\ made s (h :: t) r b').
    { intros r b H. destruct (S4 r b H) as [H2|(X & it & d & w & h0 & I & R & V & B)].
      - cbn [get] in H2. destruct (Z.eqb_spec r (rate_of (f_audio s) h)) as [->|NE]; [|discriminate H2]. assert (Q : b = Some (mkBr (f_private s) (f_width s) (f_height s) [])) by congruence. subst b. eexists. split; [reflexivity|]. split; [reflexivity|]. left. repeat split; reflexivity.
      - subst b. eexists. split; [reflexivity|]. split; [reflexivity|]. right. split; [exact X|]. exists it. split; [exact I|]. split; [exact R|exact V]. }
    split.
    + intros r it F. destruct (file_of_in _ _ _ _ F) as (I & R). destruct (add_files_all _ _ _ F1 it I) as (b & G). rewrite AU, R in G. destruct (ENT r _ G) as (b' & Q & P & M). assert (b' = b) by congruence. subst b'.
      exists (with_path b 0 (Some it)). rewrite F2, G3, G, AU, CE, F. split; [reflexivity|]. unfold with_path. cbn [b_paths b_private b_width b_height]. rewrite P. split; [reflexivity|exact M].
    + intros r F. rewrite F2, G3. destruct (get r (f_rates s0)) as [b|] eqn:G; [|reflexivity]. exfalso. destruct (ENT r b G) as (b' & _ & _ & M). assert (X : exists it, In it (h :: t) /\ rate_of (f_audio s) it = r).
      { destruct M as [(M & _)|(X & it & I & R & _)]; [exists h; split; [left; reflexivity|exact M]|]. exists it. split; [right; exact I|]. rewrite X. exact R. }
      destruct X as (it & I & R). destruct (file_of_some (f_audio s) _ it I) as (it' & F'). rewrite R, F in F'. discriminate F'.
Qed.
(** * all of them *)
Lemma fill_paths s g gs s' : fresh s -> fill true s (g :: gs) = Some s' -> in_order 0 (g :: gs) ->
  (forall r it, file_of (f_audio s) r (g_items g) = Some it -> exists b, get r (f_rates s') = Some (Some b) /\ b_paths b = (0, it_path it) :: starts (f_audio s) r (g_end g) gs /\ made s (g_items g) r b).
Proof.
  intros F E (O1 & O2 & O3) r it H. cbn [fill] in E. destruct (begin_processing true s (g_items g)) as [s1|] eqn:B; [|discriminate E].
  destruct (begin_first s _ s1 F B) as (_ & E1 & E2 & _ & _ & E3 & _ & E4 & _). destruct (E4 r it H) as (b & G & P & M).
  destruct (fill_rest r gs (add_points s1 g) s' b E O3) as (b' & R1 & R2 & R3 & R4 & R5).
  - cbn [add_points with_end f_end]. exact O1.
  - cbn [add_points with_end with_index f_index f_end]. intros t K. destruct (steps_keys _ _ _ K) as [I|K2]; [|rewrite E3 in K2; destruct K2]. apply in_map_iff in I. destruct I as (o & <- & I). rewrite Forall_forall in O2. apply (O2 o I).
  - exact G.
  - rewrite P. discriminate.
  - rewrite P. cbn [add_points with_end f_end]. constructor; [exact O1|constructor].
  - exists b'. split; [exact R1|]. cbn [add_points with_end with_index f_audio f_end] in R2. rewrite E2, P in R2. split; [exact R2|]. unfold made in *. rewrite R3, R4, R5. exact M.
Qed.
Lemma starts_keys a r gs : forall e, in_order e gs -> Forall (fun x => e <= fst x) (starts a r e gs) /\ sorted (starts a r e gs).
Proof.
  induction gs as [|g gs IH]; intros e O; [split; [constructor|exact Logic.I]|]. destruct O as (O1 & _ & O3). destruct (IH _ O3) as (K & S). cbn [starts]. destruct (file_of a r (g_items g)) as [it|]; [split|split; [|exact S]].
  - constructor; [cbn [fst]; lia|]. eapply Forall_impl; [|exact K]. intros x X. cbv beta in X. lia.
  - cbn [sorted]. split; [|exact S]. eapply Forall_impl; [|exact K]. intros x X. cbv beta in X. lia.
  - eapply Forall_impl; [|exact K]. intros x X. cbv beta in X. lia.
Qed.
Lemma later a r gs e t p : in_order e gs -> t < e -> fold_left (fun p x => if fst x <=? t then snd x else p) (starts a r e gs) p = p.
Proof. intros O T. apply fold_force. eapply Forall_impl; [|apply (starts_keys a r gs e O)]. intros x X. cbv beta in X. lia. Qed.
Lemma force_starts a r gs : forall e t p g it, in_order e gs -> e <= t -> group_at t gs = Some g -> file_of a r (g_items g) = Some it ->
  fold_left (fun p x => if fst x <=? t then snd x else p) (starts a r e gs) p = it_path it.
Proof.
  induction gs as [|g0 gs IH]; intros e t p g it O T G F; [discriminate G|]. destruct O as (O1 & _ & O3). cbn [starts].
  assert (C : (g = g0 /\ (gs = [] \/ t < g_end g0)) \/ (g_end g0 <= t /\ group_at t gs = Some g)).
  { cbn [group_at] in G. destruct gs as [|g1 gs]; [left; split; [congruence|left; reflexivity]|]. destruct (Z.ltb_spec t (g_end g0)); [left; split; [congruence|right; assumption]|right; split; [assumption|exact G]]. }
  destruct C as [(-> & C)|(C & G2)].
  - rewrite F. cbn [fold_left fst snd]. replace (e <=? t) with true by lia. destruct C as [->|C]; [reflexivity|]. apply later; assumption.
  - destruct (file_of a r (g_items g0)); [cbn [fold_left]|]; apply (IH _ t _ g it O3 C G2 F).
Qed.
Lemma source_ok s gs s' r t g it : fresh s -> fill true s gs = Some s' -> in_order 0 gs -> Forall (fun g => file_of (f_audio s) r (g_items g) <> None) (firstn 1 gs) -> group_at t gs = Some g -> file_of (f_audio s) r (g_items g) = Some it ->
  exists b, get r (f_rates s') = Some (Some b) /\ get_path (b_paths b) t = Some (it_path it).
Proof.
  intros F E O H G I. destruct gs as [|g0 gs]; [discriminate G|]. pose proof (Forall_inv H) as H0. cbv beta in H0. destruct (file_of (f_audio s) r (g_items g0)) as [it0|] eqn:I0; [|contradiction].
  destruct (fill_paths s g0 gs s' F E O r it0 I0) as (b & B1 & B2 & _). exists b. split; [exact B1|]. rewrite B2. destruct O as (O1 & _ & O3). destruct (starts_keys (f_audio s) r gs (g_end g0) O3) as (K & S).
  rewrite path_in_force; [|cbn [sorted]; split; [eapply Forall_impl; [|exact K]; intros x X; cbv beta in X; lia|exact S]|discriminate]. f_equal. unfold in_force. cbn [fold_left fst snd].
  replace (if 0 <=? t then it_path it0 else it_path it0) with (it_path it0) by (destruct (0 <=? t); reflexivity).
  assert (C : (g = g0 /\ (gs = [] \/ t < g_end g0)) \/ (g_end g0 <= t /\ group_at t gs = Some g)).
  { cbn [group_at] in G. destruct gs as [|g1 gs]; [left; split; [congruence|left; reflexivity]|]. destruct (Z.ltb_spec t (g_end g0)); [left; split; [congruence|right; assumption]|right; split; [assumption|exact G]]. }
  destruct C as [(-> & C)|(C & G2)].
  - assert (Q : it0 = it) by congruence. subst it0. destruct C as [->|C]; [reflexivity|]. apply later; assumption.
  - apply (force_starts _ r gs (g_end g0) t _ g it O3 C G2 I).
Qed.
