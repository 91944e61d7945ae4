(** Lemmas on filling a presentation. *)
From Coq Require Import String ZifyNat.
From Verif Require Import Util Points_model Points_proofs Points_proofs2 Pres_model Pres_proofs3 Smooth_model Smooth_proofs Fill_model.
Local Open Scope Z_scope.

Lemma add_path_twice {A} (m : zmap A) e p q : add_path (add_path m e p) e q = add_path m e p.
Proof.
  assert (G : get e (add_path m e p) <> None /\ add_path m e p <> []).
  { unfold add_path. set (m' := if _ && _ then put 0 p m else m). destruct (get e m') as [v|] eqn:E.
    - rewrite E. split; [discriminate|]. intros Q. rewrite Q in E. discriminate E.
    - rewrite get_put_same. split; [discriminate|]. intros Q. pose proof (get_put_same e p m') as X. rewrite Q in X. discriminate X. }
  destruct G as (G1 & G2). generalize dependent (add_path m e p). intros z G1 G2. unfold add_path. destruct z as [|x z]; [contradiction|]. cbn [andb]. destruct (get e (x :: z)); [reflexivity|contradiction].
Qed.
Definition with_path (b : bitrate) (e : Z) (o : option item) : bitrate :=
  match o with Some it => mkBr (b_private b) (b_width b) (b_height b) (add_path (b_paths b) e (it_path it)) | None => b end.
Lemma rate_eq (a : bool) it : (if a then it_audio it else it_rate it) = rate_of a it. Proof. reflexivity. Qed.
Lemma current_rates s m : current_end (with_rates s m) = current_end s. Proof. reflexivity. Qed.
Definition same_but_rates (s s' : fstrm) : Prop := s' = with_rates s (f_rates s').
Lemma add_files_ok l : forall s s', add_files s l = Some s' -> same_but_rates s s' /\ (sorted (f_rates s) -> sorted (f_rates s')) /\
  forall r, get r (f_rates s') = match get r (f_rates s) with Some (Some b) => Some (Some (with_path b (current_end s) (file_of (f_audio s) r l))) | x => x end.
Proof.
  induction l as [|it l IH]; intros s s' E; cbn [add_files] in E.
  - injection E as <-. split; [destruct s; reflexivity|]. split; [auto|]. intros r. cbn [file_of List.find with_path]. destruct (get r (f_rates s)) as [[b|]|]; reflexivity.
  - destruct (add_file s it) as [s1|] eqn:A; [|discriminate E]. unfold add_file in A. set (x := rate_of (f_audio s) it) in *. destruct (get x (f_rates s)) as [[b|]|] eqn:G; try discriminate A.
    assert (Q : s1 = with_rates s (put x (Some (mkBr (b_private b) (b_width b) (b_height b) (add_path (b_paths b) (current_end s) (it_path it)))) (f_rates s))) by congruence. clear A. destruct (IH _ _ E) as (S1 & S2 & S3). subst s1. split; [|split].
    + unfold same_but_rates in S1 |- *. rewrite S1 at 1. reflexivity.
    + intros S. apply S2. cbn [with_rates f_rates]. apply put_sorted. exact S.
    + intros r. rewrite S3. cbn [with_rates f_rates f_audio]. change (current_end (with_rates s ?m)) with (current_end s).
      assert (F : file_of (f_audio s) r (it :: l) = if x =? r then Some it else file_of (f_audio s) r l) by reflexivity. rewrite F.
      destruct (Z.eqb_spec x r) as [QE|NE].
      * rewrite <- QE. rewrite get_put_same, G. f_equal. f_equal. unfold with_path. destruct (file_of (f_audio s) x l); [|reflexivity]. cbn [b_private b_width b_height b_paths]. rewrite add_path_twice. reflexivity.
      * rewrite get_put_other by congruence. reflexivity.
Qed.
Lemma add_file_head s it l : add_files s (it :: l) = match add_file s it with Some s1 => add_files s1 l | None => None end. Proof. reflexivity. Qed.
Lemma add_files_index i l : forall s, current_end (with_index s i) = current_end s -> add_files (with_index s i) l = option_map (fun s' => with_index s' i) (add_files s l).
Proof.
  induction l as [|it l IH]; intros s C; [reflexivity|]. cbn [add_files]. unfold add_file. cbn [with_index f_audio f_rates]. rewrite C. destruct (get (rate_of (f_audio s) it) (f_rates s)) as [[b|]|]; [|reflexivity|reflexivity].
  set (m := put _ _ _). change (with_rates (with_index s i) m) with (with_index (with_rates s m) i). apply IH. exact C.
Qed.
Lemma file_end s e : current_end (with_index s (index_step (f_index s) (AddFile e))) = current_end s. Proof. reflexivity. Qed.
(** a group: the rates as after [add_files] *)
Lemma add_group_ok l s s' : add_group s l = Some s' -> exists s1, add_files s l = Some s1 /\ f_rates s' = f_rates s1 /\ f_end s' = f_end s /\ f_audio s' = f_audio s /\ f_id s' = f_id s /\ f_name s' = f_name s
  /\ i_points (f_index s') = i_points (f_index s) /\ i_cross (f_index s') = i_cross (f_index s).
Proof.
  destruct l as [|it l]; cbn [add_group]; [intros E; injection E as <-; exists s; repeat split; reflexivity|]. cbn [add_files]. destruct (add_file s it) as [s1|] eqn:A; [|discriminate]. intros E.
  rewrite add_files_index in E by reflexivity. destruct (add_files s1 l) as [s2|] eqn:F; [|discriminate E]. cbn [option_map] in E. assert (Q : s' = with_index s2 (index_step (f_index s1) (AddFile (current_end s1)))) by congruence. subst s'. exists s2. split; [reflexivity|].
  destruct (add_files_ok l s1 s2 F) as (B & _). unfold same_but_rates in B. assert (A' : f_index s1 = f_index s /\ f_end s1 = f_end s /\ f_audio s1 = f_audio s /\ f_id s1 = f_id s /\ f_name s1 = f_name s).
  { unfold add_file in A. destruct (get _ _) as [[b|]|]; try discriminate A. injection A as <-. repeat split; reflexivity. }
  destruct A' as (A1 & A2 & A3 & A4 & A5). cbn [with_index f_rates f_end f_audio f_id f_name f_index index_step i_points i_cross]. rewrite A1. rewrite B. cbn [with_rates f_end f_audio f_id f_name]. repeat split; assumption.
Qed.
Lemma add_group_get l s s' : add_group s l = Some s' -> forall r, get r (f_rates s') = match get r (f_rates s) with Some (Some b) => Some (Some (with_path b (current_end s) (file_of (f_audio s) r l))) | x => x end.
Proof. intros E r. destruct (add_group_ok l s s' E) as (s1 & A & R & _). rewrite R. apply (add_files_ok l s s1 A). Qed.
(** * points *)
Lemma step_keys i o t : has_key (i_points (index_step i o)) t -> t = op_time o \/ has_key (i_points i) t.
Proof.
  destruct o as [a v|a|a c a2 c2]; cbn [index_step i_points op_time]; intros H; [|right; exact H|]; unfold has_key in *; apply in_map_iff in H; destruct H as (x & <- & X); destruct (put_keys _ _ _ _ X) as [->|X2]; try (left; reflexivity); right; apply in_map; exact X2.
Qed.
Lemma steps_keys ops : forall i t, has_key (i_points (fold_left index_step ops i)) t -> In t (map op_time ops) \/ has_key (i_points i) t.
Proof.
  induction ops as [|o ops IH]; intros i t H; [right; exact H|]. cbn [fold_left] in H. destruct (IH _ _ H) as [I|K]; [left; right; exact I|]. destruct (step_keys _ _ _ K) as [->|K2]; [left; left; reflexivity|right; exact K2].
Qed.
Lemma below_end s : 0 < f_end s -> (forall t, has_key (i_points (f_index s)) t -> t < f_end s) -> current_end s = f_end s.
Proof.
  intros P B. unfold current_end. destruct (i_points (f_index s)) as [|x m] eqn:Q; [cbn [maxt]; replace (f_end s <? 0) with false by lia; reflexivity|]. pose proof (maxt_key (x :: m) ltac:(discriminate)) as K. specialize (B _ K). replace (f_end s <? maxt (x :: m)) with false by lia. reflexivity.
Qed.
(** * the files of a bit rate *)
Fixpoint starts (a : bool) (r e : Z) (gs : list group) : zmap (list Z) :=
  match gs with [] => [] | g :: gs => match file_of a r (g_items g) with Some it => (e, it_path it) :: starts a r (g_end g) gs | None => starts a r (g_end g) gs end end.
Lemma add_path_last {A} (m : zmap A) e p : m <> [] -> Forall (fun x => fst x < e) m -> add_path m e p = m ++ [(e, p)].
Proof.
  intros N F. unfold add_path. destruct m as [|x m]; [contradiction|]. cbn [andb]. assert (G : get e (x :: m) = None).
  { clear N. induction F as [|(k & v) l H F IH]; [reflexivity|]. cbn [get fst] in *. replace (e =? k) with false by lia. exact IH. }
  rewrite G. apply put_last. exact F.
Qed.
Lemma fill_rest r gs : forall s s' b, fill false s gs = Some s' -> in_order (f_end s) gs -> 0 < f_end s -> (forall t, has_key (i_points (f_index s)) t -> t < f_end s) ->
  get r (f_rates s) = Some (Some b) -> b_paths b <> [] -> Forall (fun x => fst x < f_end s) (b_paths b) ->
  exists b', get r (f_rates s') = Some (Some b') /\ b_paths b' = b_paths b ++ starts (f_audio s) r (f_end s) gs /\ b_private b' = b_private b /\ b_width b' = b_width b /\ b_height b' = b_height b.
Proof.
  induction gs as [|g gs IH]; intros s s' b E O P B G N F; cbn [fill] in E.
  - assert (Q : s' = s) by congruence. subst s'. exists b. cbn [starts]. rewrite app_nil_r. repeat split; try reflexivity. exact G.
  - unfold begin_processing in E. destruct (add_group s (g_items g)) as [s1|] eqn:A; [|discriminate E]. destruct O as (O1 & O2 & O3). pose proof (add_group_get _ _ _ A r) as G1. rewrite G in G1. rewrite (below_end s P B) in G1.
    destruct (add_group_ok _ _ _ A) as (_ & _ & _ & E1 & E2 & _ & _ & E3 & _).
    destruct (IH (add_points s1 g) s' (with_path b (f_end s) (file_of (f_audio s) r (g_items g))) E O3 ltac:(cbn [add_points with_end f_end]; lia)) as (b' & R1 & R2 & R3 & R4 & R5).
    + cbn [add_points with_end with_index f_index f_end]. intros t K. destruct (steps_keys _ _ _ K) as [I|K2].
      * apply in_map_iff in I. destruct I as (o & <- & I). rewrite Forall_forall in O2. apply (O2 o I).
      * rewrite E3 in K2. specialize (B t K2). lia.
    + exact G1.
    + unfold with_path. destruct (file_of _ _ _); [|exact N]. cbn [b_paths]. rewrite add_path_last by assumption. destruct (b_paths b); discriminate.
    + cbn [add_points with_end f_end]. unfold with_path. destruct (file_of _ _ _) as [it|]; [cbn [b_paths]; rewrite add_path_last by assumption; apply Forall_app; split; [|constructor; [cbn [fst]; lia|constructor]]|]; (eapply Forall_impl; [|exact F]; intros x X; cbv beta in X; lia).
    + exists b'. split; [exact R1|]. cbn [add_points with_end with_index f_audio f_end] in R2. rewrite E2 in R2. cbn [starts]. rewrite R2, R3, R4, R5. unfold with_path. destruct (file_of (f_audio s) r (g_items g)) as [it|]; [|repeat split; reflexivity].
      cbn [b_paths b_private b_width b_height]. rewrite add_path_last by assumption. rewrite <- app_assoc. repeat split; reflexivity.
Qed.
(** * the first group *)
Lemma add_rest_ok l : forall s s', add_rest s l = Some s' -> same_but_rates s s' /\ (sorted (f_rates s) -> sorted (f_rates s')) /\
  (f_audio s = true -> s' = s) /\
  (forall r b, get r (f_rates s') = Some b -> get r (f_rates s) = Some b \/ (f_audio s = false /\ exists it d w h, In it l /\ it_rate it = r /\ it_visual it (f_id s) = Some (d, w, h) /\ b = Some (mkBr d w h []))) /\
  (forall r, get r (f_rates s) <> None -> get r (f_rates s') <> None) /\ (f_audio s = false -> forall it, In it l -> get (it_rate it) (f_rates s') <> None).
Proof.
  induction l as [|it l IH]; intros s s' E; cbn [add_rest] in E.
  - assert (Q : s' = s) by congruence. subst s'. split; [destruct s; reflexivity|]. split; [auto|]. split; [reflexivity|]. split; [intros r b H; left; exact H|]. split; [auto|]. intros _ it [].
  - destruct (add_rate s it) as [s1|] eqn:A; [|discriminate E]. destruct (IH _ _ E) as (S1 & S2 & S3 & S4 & S5 & S6). unfold add_rate in A. destruct (it_opens it); [|discriminate A]. destruct (f_audio s) eqn:AU.
    + assert (Q : s1 = s) by congruence. subst s1. split; [exact S1|]. split; [exact S2|]. split; [intros _; apply S3; exact AU|]. split; [|split; [exact S5|discriminate]].
      intros r b H. destruct (S4 r b H) as [H2|(X & _)]; [left; exact H2|congruence].
    + destruct (it_visual it (f_id s)) as [((d & w) & h)|] eqn:V; [|discriminate A]. assert (Q : s1 = with_rates s (put (it_rate it) (Some (mkBr d w h [])) (f_rates s))) by congruence. subst s1. cbn [with_rates f_rates f_id f_audio] in *.
      split; [unfold same_but_rates in S1 |- *; rewrite S1 at 1; reflexivity|]. split; [intros H; apply S2, put_sorted; exact H|]. split; [discriminate|]. split; [|split].
      * intros r b H. destruct (S4 r b H) as [H2|(X & it2 & d2 & w2 & h2 & I2 & R2 & V2 & B2)].
        -- destruct (Z.eq_dec r (it_rate it)) as [->|NE]; [|left; rewrite get_put_other in H2 by exact NE; exact H2]. rewrite get_put_same in H2. right. split; [reflexivity|]. exists it, d, w, h. split; [left; reflexivity|]. split; [reflexivity|]. split; [exact V|congruence].
        -- right. split; [reflexivity|]. exists it2, d2, w2, h2. split; [right; exact I2|]. split; [exact R2|]. split; assumption.
      * intros r H. apply S5. destruct (Z.eq_dec r (it_rate it)) as [->|NE]; [rewrite get_put_same; discriminate|rewrite get_put_other by exact NE; exact H].
      * intros _ it2 [<-|I2]; [|apply S6; [exact AU|exact I2]]. apply S5. rewrite get_put_same. discriminate.
Qed.
