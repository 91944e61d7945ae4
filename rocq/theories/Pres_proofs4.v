(** Lemmas on the DASH presentation: declared streams, attributes. *)
From Coq Require Import String ZifyNat Permutation.
From Verif Require Import Util Dec_spec Dec_lemmas Str_model Str_proofs Mpd_model Mpd_proofs Points_model Points_proofs Points_proofs2 Pres_model Pres_proofs Pres_proofs2 Pres_proofs3.
Local Open Scope Z_scope.

(** * declaring *)
Lemma name_total a : forall b, name_ltb a b = false -> name_ltb b a = false -> a = b.
Proof.
  induction a as [|x a IH]; intros [|y b] E1 E2; try reflexivity; try discriminate. cbn [name_ltb] in *. destruct (Z.eqb_spec x y) as [->|NE].
  - rewrite Z.eqb_refl in E2. rewrite (IH b E1 E2). reflexivity.
  - destruct (Z.eqb_spec y x); [congruence|]. lia.
Qed.
Lemma insert_perm s p : ~ In (n_name s) (map n_name p) -> Permutation (insert_strm s p) (s :: p).
Proof.
  induction p as [|x p IH]; intros N; [reflexivity|]. cbn [insert_strm]. destruct (name_ltb (n_name s) (n_name x)) eqn:E1; [reflexivity|]. destruct (name_ltb (n_name x) (n_name s)) eqn:E2.
  - rewrite IH by (intros X; apply N; right; exact X). apply perm_swap.
  - exfalso. apply N. left. symmetry. apply name_total; assumption.
Qed.
Definition nm (audio : bool) (i : Z) : list Z := str (if audio then "audio" else "video") ++ (if 0 <? i then dec i else []).
Lemma nm_inj a b i j : 0 <= i -> 0 <= j -> nm a i = nm b j -> a = b /\ i = j.
Proof.
  intros Hi Hj E. unfold nm in E. assert (Q : a = b) by (destruct a, b; try reflexivity; discriminate E). subst b. split; [reflexivity|]. apply app_inv_head in E.
  destruct (Z.ltb_spec 0 i), (Z.ltb_spec 0 j).
  - apply dec_inj in E; assumption.
  - destruct (dec_ok i Hi) as (_ & _ & X). rewrite E in X. contradiction.
  - destruct (dec_ok j Hj) as (_ & _ & X). rewrite <- E in X. contradiction.
  - lia.
Qed.
Lemma kind_count_perm a p q : Permutation p q -> kind_count a p = kind_count a q.
Proof.
  intros P. unfold kind_count, zlen. f_equal.
  induction P as [|x p q P IH|x y p|p q r P1 IH1 P2 IH2]; cbn [filter]; [reflexivity| | |congruence].
  - destruct (Bool.eqb (n_audio x) a); cbn [length]; congruence.
  - destruct (Bool.eqb (n_audio x) a), (Bool.eqb (n_audio y) a); cbn [length]; reflexivity.
Qed.
Lemma kind_count_nonneg a p : 0 <= kind_count a p.
Proof. unfold kind_count. apply zlen_nonneg. Qed.
Lemma kind_count_cons a s p : kind_count a (s :: p) = (if Bool.eqb (n_audio s) a then 1 else 0) + kind_count a p.
Proof. unfold kind_count. cbn [filter]. destruct (Bool.eqb (n_audio s) a); unfold zlen; cbn [length]; lia. Qed.
Definition numbered (p : pres) : Prop := NoDup (map n_name p) /\ forall s, In s p -> exists i, 0 <= i < kind_count (n_audio s) p /\ n_name s = nm (n_audio s) i.
Lemma declare_ok p s : numbered p -> exists s', Permutation (declare p s) (s' :: p) /\ content s' = content s /\ numbered (declare p s).
Proof.
  intros (N & I). unfold declare. set (c := kind_count (n_audio s) p).
  assert (E : (if 0 <? c then str (if n_audio s then "audio" else "video") ++ dec c else str (if n_audio s then "audio" else "video")) = nm (n_audio s) c) by (unfold nm; destruct (0 <? c); [reflexivity|rewrite app_nil_r; reflexivity]).
  rewrite E. set (s' := mkStrm (nm (n_audio s) c) (n_audio s) (n_id s) (n_sampling s) (n_reps s) (n_points s)).
  assert (F : ~ In (n_name s') (map n_name p)).
  { intros X. apply in_map_iff in X. destruct X as (x & Ex & Ix). destruct (I x Ix) as (i & Hi & En). rewrite En in Ex. cbn [s' n_name] in Ex. apply nm_inj in Ex; [|lia|apply kind_count_nonneg]. destruct Ex as (E1 & E2). rewrite E1 in Hi. fold c in Hi. lia. }
  pose proof (insert_perm s' p F) as P. exists s'. split; [exact P|]. split; [reflexivity|]. split.
  - apply (Permutation_NoDup (Permutation_map n_name (Permutation_sym P))). cbn [map]. constructor; assumption.
  - intros x X. rewrite (kind_count_perm _ _ _ P), kind_count_cons. apply (Permutation_in _ P) in X. destruct X as [<-|X].
    + exists c. cbn [s' n_audio n_name]. rewrite Bool.eqb_reflx. fold c. split; [pose proof (kind_count_nonneg (n_audio s) p); lia|reflexivity].
    + destruct (I x X) as (i & Hi & En). exists i. split; [destruct (Bool.eqb (n_audio s') (n_audio x)); lia|exact En].
Qed.
Lemma declare_fold l : forall p, numbered p -> exists q, Permutation (fold_left declare l p) (q ++ p) /\ Permutation (map content q) (map content l) /\ numbered (fold_left declare l p).
Proof.
  induction l as [|s l IH]; intros p N; [exists []; split; [reflexivity|]; split; [reflexivity|exact N]|]. cbn [fold_left]. destruct (declare_ok p s N) as (s' & P & C & N'). destruct (IH _ N') as (q & Q1 & Q2 & Q3).
  exists (s' :: q). split; [|split; [|exact Q3]].
  - rewrite Q1, P. cbn [app]. symmetry. apply Permutation_middle.
  - cbn [map]. rewrite C, Q2. reflexivity.
Qed.
Lemma declared_ok l : Permutation (map content (declare_all l)) (map content l) /\ NoDup (map n_name (declare_all l)) /\ Forall (fun s => plain_name (n_name s)) (declare_all l).
Proof.
  destruct (declare_fold l []) as (q & Q1 & Q2 & (N1 & N2)); [split; [constructor|intros s []]|]. unfold declare_all. rewrite app_nil_r in Q1. split; [rewrite Q1; exact Q2|]. split; [exact N1|].
  apply Forall_forall. intros s I. destruct (N2 s I) as (i & Hi & E). rewrite E. unfold nm, plain_name.
  assert (X : forall c, ~ is_digit c -> ~ In c (str (if n_audio s then "audio" else "video")) -> ~ In c (str (if n_audio s then "audio" else "video") ++ (if 0 <? i then dec i else []))).
  { intros c D C Y. apply in_app_or in Y. destruct Y as [Y|Y]; [contradiction|]. destruct (0 <? i); [|exact Y]. revert Y. apply digit_not; [exact D|apply dec_digits; lia]. }
  repeat split; (apply X; [unfold is_digit; lia|destruct (n_audio s); vm_compute; intuition discriminate]).
Qed.
Lemma declared_resolves cpv cpa l : Forall harmless cpv -> Forall harmless cpa -> l <> [] -> Permutation (map n_id l) (zupto 0 (length l)) -> Forall (fun s => rates_ok (n_reps s) /\ points_ok (n_points s) /\ Forall (fun r => bytes (r_private r)) (n_reps s)) l ->
  exists text files, manifest cpv cpa (declare_all l) = Some text /\ files_written (declare_all l) = Some files /\ Permutation (player_urls text) files /\ NoDup files.
Proof.
  intros Cv Ca NE H F. destruct (declared_ok l) as (P & N & Pl). set (p := declare_all l) in *.
  assert (L : length p = length l) by (apply Permutation_length in P; rewrite !map_length in P; exact P).
  apply presentation_resolves; try assumption.
  - intros E. rewrite E in L. destruct l; [contradiction|discriminate L].
  - rewrite L, <- H. pose proof (Permutation_map (fun c => let '(_, i, _, _, _) := c in i) P) as Q. rewrite !map_map in Q. exact Q.
  - apply Forall_forall. intros s I. assert (X : In (content s) (map content l)) by (apply (Permutation_in _ P); apply in_map; exact I). apply in_map_iff in X. destruct X as (s' & E & I').
    rewrite Forall_forall in F, Pl. destruct (F s' I') as (F1 & F2 & F3). assert (Q : n_reps s' = n_reps s /\ n_points s' = n_points s) by (unfold content in E; split; congruence). destruct Q as (Q1 & Q2). rewrite Q1 in F1, F3. rewrite Q2 in F2.
    split; [apply Pl; exact I|]. split; [exact F1|]. split; [exact F2|exact F3].
Qed.
