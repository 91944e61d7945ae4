(** Proofs about Demux_model. *)
From Coq Require Import ZifyNat Permutation Sorted.
From Verif Require Import Util RangeMap_model SampleTab_model SampleTab_proofs TimeTab_model Box_model Box_proofs Movie_model Movie_proofs7 Demux_model.
From Verif Require MuxQueue_model MuxQueue_proofs Walk_model Walk_proofs Walk_props.
Local Open Scope Z_scope.

(** ** Lists *)
Lemma all_some_ok : forall {A} (l : list (option A)), (forall o, In o l -> o <> None) -> exists r, all_some l = Some r /\ l = map Some r.
Proof.
  intros A. induction l as [|o l IH]; intros H; [exists []; split; reflexivity|]. destruct o as [a|]; [|exfalso; exact (H None (or_introl eq_refl) eq_refl)].
  destruct IH as (r & E1 & E2); [intros o Ho; apply H; right; exact Ho|]. exists (a :: r). cbn [all_some]. rewrite E1, E2. split; reflexivity.
Qed.
Lemma all_some_map : forall {A B} (f : A -> option B) l, (forall a, In a l -> f a <> None) -> exists r, all_some (map f l) = Some r /\ length r = length l /\ (forall i a, nth_error l i = Some a -> exists b, nth_error r i = Some b /\ f a = Some b) /\ (forall b, In b r -> exists a, In a l /\ f a = Some b).
Proof.
  intros A B f l H. destruct (all_some_ok (map f l)) as (r & E1 & E2); [intros o Ho; apply in_map_iff in Ho; destruct Ho as (a & <- & Ha); apply H; exact Ha|].
  exists r. split; [exact E1|]. split; [apply (f_equal (@length _)) in E2; rewrite !map_length in E2; lia|]. split.
  - intros i a Hi. pose proof (f_equal (fun x => nth_error x i) E2) as Q. cbv beta in Q. rewrite !nth_error_map, Hi in Q. cbn [option_map] in Q. destruct (nth_error r i) as [b|]; [|discriminate]. injection Q as Q. exists b. split; [reflexivity|exact Q].
  - intros b Hb. assert (Q : In (Some b) (map f l)) by (rewrite E2; apply in_map; exact Hb). apply in_map_iff in Q. destruct Q as (a & Ea & Ha). exists a. split; assumption.
Qed.
Lemma sorted_unique : forall {A} (R : A -> A -> Prop), (forall a b, R a b -> R b a -> False) -> forall l1 l2, StronglySorted R l1 -> StronglySorted R l2 -> Permutation l1 l2 -> l1 = l2.
Proof.
  intros A R As. induction l1 as [|a l1 IH]; intros l2 S1 S2 P; [apply Permutation_nil in P; subst; reflexivity|].
  destruct l2 as [|b l2]; [apply Permutation_sym, Permutation_nil in P; discriminate|].
  inversion S1 as [|? ? S1' F1]; subst. inversion S2 as [|? ? S2' F2]; subst.
  assert (Q : a = b).
  { assert (Ia : In a (b :: l2)) by (apply (Permutation_in _ P); left; reflexivity). assert (Ib : In b (a :: l1)) by (apply (Permutation_in _ (Permutation_sym P)); left; reflexivity).
    destruct Ia as [->|Ia]; [reflexivity|]. destruct Ib as [->|Ib]; [reflexivity|]. rewrite Forall_forall in F1, F2. exfalso. exact (As a b (F1 b Ib) (F2 a Ia)). }
  subst b. f_equal. apply IH; [assumption|assumption|]. apply (Permutation_cons_inv P).
Qed.
Lemma sorted_cmp : forall {A} (R : A -> A -> Prop) l, StronglySorted R l -> forall a b, In a l -> In b l -> a <> b -> R a b \/ R b a.
Proof.
  intros A R l H. induction H as [|x l H IH F]; intros a b Ia Ib N; [destruct Ia|]. rewrite Forall_forall in F. destruct Ia as [<-|Ia], Ib as [<-|Ib]; [contradiction|left; apply F; exact Ib|right; apply F; exact Ia|apply IH; assumption].
Qed.
Lemma sorted_nodup : forall {A} (R : A -> A -> Prop), (forall a, ~ R a a) -> forall l, StronglySorted R l -> NoDup l.
Proof. intros A R Ir l H. induction H as [|x l H IH F]; [constructor|]. constructor; [|exact IH]. intros Hx. rewrite Forall_forall in F. exact (Ir x (F x Hx)). Qed.
Lemma nodup_apart : forall {A} (ll : list (list A)) i j l l' a, NoDup (concat ll) -> nth_error ll i = Some l -> nth_error ll j = Some l' -> i <> j -> In a l -> In a l' -> False.
Proof.
  intros A. induction ll as [|x ll IH]; intros i j l l' a N Hi Hj NE Ia Ib; [destruct i; discriminate|]. cbn [concat] in N.
  assert (D : forall b, In b x -> In b (concat ll) -> False). { intros b B1 B2. apply in_split in B1. destruct B1 as (u & v & ->). rewrite <- app_assoc in N. apply NoDup_remove_2 in N. apply N. apply in_or_app. right. apply in_or_app. right. exact B2. }
  destruct i as [|i], j as [|j]; cbn [nth_error] in *; [contradiction| | |].
  - injection Hi as <-. apply (D a Ia). apply in_concat. exists l'. split; [exact (nth_error_In _ _ Hj)|exact Ib].
  - injection Hj as <-. apply (D a Ib). apply in_concat. exists l. split; [exact (nth_error_In _ _ Hi)|exact Ia].
  - assert (N' : NoDup (concat ll)) by (clear - N; induction x as [|y x IHx]; [exact N|]; apply IHx; inversion N; assumption). apply (IH i j l l' a N' Hi Hj); [congruence|assumption|assumption].
Qed.
Lemma sorted_map : forall {A B} (f : A -> B) (R : B -> B -> Prop) (R' : A -> A -> Prop) l, (forall a b, In a l -> In b l -> R' a b -> R (f a) (f b)) -> StronglySorted R' l -> StronglySorted R (map f l).
Proof.
  intros A B f R R' l H S0. induction S0 as [|x l S0 IH F]; [constructor|]. cbn [map]. constructor; [apply IH; intros a b Ha Hb; apply H; right; assumption|].
  apply Forall_map. rewrite Forall_forall in F |- *. intros y Hy. apply H; [left; reflexivity|right; exact Hy|apply F; exact Hy].
Qed.
(** the streams together *)
Lemma of_stream_cons : forall k i x l, Walk_model.of_stream k ((i, x) :: l) = (if Nat.eqb i k then [x] else []) ++ Walk_model.of_stream k l.
Proof. intros k i x l. unfold Walk_model.of_stream. cbn [filter fst]. destruct (Nat.eqb i k); reflexivity. Qed.
Lemma insert_perm : forall {A} (f : nat -> list A) i x n a, (a <= i < a + n)%nat -> Permutation (concat (map (fun k => (if Nat.eqb i k then [x] else []) ++ f k) (seq a n))) (x :: concat (map f (seq a n))).
Proof.
  intros A f i x. induction n as [|n IH]; intros a H; [lia|]. cbn [seq map concat]. destruct (Nat.eqb_spec i a) as [Q|NE].
  - subst i. cbn [app]. constructor. apply Permutation_app_head. erewrite map_ext_in; [reflexivity|]. intros k Hk. apply in_seq in Hk. destruct (Nat.eqb_spec a k); [lia|reflexivity].
  - cbn [app]. rewrite (IH (S a)) by lia. apply Permutation_sym, Permutation_middle.
Qed.
Lemma streams_perm : forall n l, (forall i x, In (i, x) l -> (i < n)%nat) -> Permutation (map snd l) (concat (map (fun k => Walk_model.of_stream k l) (seq 0 n))).
Proof.
  intros n. induction l as [|[i x] l IH]; intros H.
  - cbn [map]. induction (seq 0 n) as [|k q IH2]; [constructor|]. cbn [map concat Walk_model.of_stream filter app]. exact IH2.
  - cbn [map snd]. rewrite (IH (fun i x I0 => H i x (or_intror I0))). rewrite <- (insert_perm (fun k => Walk_model.of_stream k l) i x n 0); [|specialize (H i x (or_introl eq_refl)); lia].
    rewrite (map_ext (fun k => Walk_model.of_stream k ((i, x) :: l)) (fun k => (if Nat.eqb i k then [x] else []) ++ Walk_model.of_stream k l) (fun k => of_stream_cons k i x l)). reflexivity.
Qed.

(** ** The samples of a stream are in order in the file *)
Notation wsample := (MuxQueue_model.sample * Z)%type.
Definition ahead (a b : wsample) : Prop := snd a + zlen (MuxQueue_model.s_body (fst a)) <= snd b.
Definition asc (file : list Z) (st : MuxQueue_model.stream) : Prop :=
  StronglySorted ahead (MuxQueue_model.written st) /\ Forall (fun a => snd a + zlen (MuxQueue_model.s_body (fst a)) <= zlen file) (MuxQueue_model.written st).
Lemma asc_more : forall file file' st, zlen file <= zlen file' -> asc file st -> asc file' st.
Proof. intros file file' st L (A & B). split; [exact A|]. eapply Forall_impl; [|exact B]. intros a Ha. cbv beta in *. lia. Qed.
Lemma sorted_snoc : forall {A} (R : A -> A -> Prop) l x, StronglySorted R l -> Forall (fun a => R a x) l -> StronglySorted R (l ++ [x]).
Proof.
  intros A R l x H. induction H as [|y l H IH F]; intros G; [constructor; constructor|]. cbn [app]. constructor; [apply IH; exact (Forall_inv_tail G)|]. apply Forall_app. split; [exact F|]. constructor; [exact (Forall_inv G)|constructor].
Qed.
Lemma write_queue_asc : forall uc mx q w file q' w' file', MuxQueue_model.write_queue uc mx q w file = (q', w', file') -> asc file (MuxQueue_model.mkSt q w) -> asc file' (MuxQueue_model.mkSt q' w') /\ zlen file <= zlen file'.
Proof.
  intros uc mx. induction q as [|s q IH]; intros w file q' w' file' E A; cbn [MuxQueue_model.write_queue] in E; [injection E as <- <- <-; split; [exact A|lia]|].
  destruct (MuxQueue_model.early uc mx s); [|injection E as <- <- <-; split; [exact A|lia]].
  assert (L : zlen file <= zlen (file ++ MuxQueue_model.s_body s)) by (unfold zlen; rewrite app_length; lia).
  destruct (IH _ _ _ _ _ E) as (B1 & B2); [|split; [exact B1|lia]]. destruct A as (A1 & A2). cbn [MuxQueue_model.written] in *. split; cbn [MuxQueue_model.written].
  - apply sorted_snoc; [exact A1|]. eapply Forall_impl; [|exact A2]. intros a Ha. unfold ahead. cbn [snd]. exact Ha.
  - apply Forall_app. split; [eapply Forall_impl; [|exact A2]; intros a Ha; cbv beta in *; lia|]. constructor; [|constructor]. cbn [fst snd]. unfold zlen. rewrite app_length. lia.
Qed.
Lemma write_samples_asc : forall uc mx st file st' file' b o, MuxQueue_model.write_samples uc mx st file = (st', file', b, o) -> asc file st -> asc file' st' /\ zlen file <= zlen file'.
Proof.
  intros uc mx [q w] file st' file' b o E A. unfold MuxQueue_model.write_samples in E. cbn [MuxQueue_model.pending MuxQueue_model.written] in E. destruct (MuxQueue_model.write_queue uc mx q w file) as [[q' w'] f'] eqn:W. injection E as <- <- _ _. exact (write_queue_asc _ _ _ _ _ _ _ _ W A).
Qed.
Lemma pass_asc : forall uc dist todo done file maxc used w over l' file' m' u' w' o', MuxQueue_model.pass uc dist done todo file maxc used w over = (l', file', m', u', w', o') -> Forall (asc file) done -> Forall (asc file) todo -> Forall (asc file') l'.
Proof.
  intros uc dist. induction todo as [|st todo IH]; intros done file maxc used w over l' file' m' u' w' o' E D T; cbn [MuxQueue_model.pass] in E; [injection E as <- <- _ _ _ _; exact D|].
  destruct (MuxQueue_model.write_samples uc (u64 (used + dist)) st file) as [[[st' f'] wrote] so] eqn:W. destruct (write_samples_asc _ _ _ _ _ _ _ _ W (Forall_inv T)) as (A1 & A2).
  assert (D' : Forall (asc f') (done ++ [st'])). { apply Forall_app. split; [eapply Forall_impl; [|exact D]; intros x Hx; exact (asc_more _ _ _ A2 Hx)|]. constructor; [exact A1|constructor]. }
  assert (T' : Forall (asc f') todo) by (eapply Forall_impl; [|exact (Forall_inv_tail T)]; intros x Hx; exact (asc_more _ _ _ A2 Hx)).
  destruct wrote; exact (IH _ _ _ _ _ _ _ _ _ _ _ _ E D' T').
Qed.
Lemma write_loop_asc : forall fuel uc dist inc l file maxc used l' file' m', MuxQueue_model.write_loop fuel uc dist inc l file maxc used = Some (l', file', m') -> Forall (asc file) l -> Forall (asc file') l'.
Proof.
  induction fuel as [|fuel IH]; intros uc dist inc l file maxc used l' file' m' E A; [discriminate|]. cbn [MuxQueue_model.write_loop] in E.
  destruct (MuxQueue_model.pass uc dist [] l file maxc used false true) as [[[[[l1 f1] m1] u1] w1] o1] eqn:P. pose proof (pass_asc _ _ _ _ _ _ _ _ _ _ _ _ _ _ _ P (Forall_nil _) A) as A1.
  destruct w1; [exact (IH _ _ _ _ _ _ _ _ _ _ E A1)|]. destruct o1; [exact (IH _ _ _ _ _ _ _ _ _ _ E A1)|]. injection E as <- <- _. exact A1.
Qed.
Lemma after_asc : forall uc dist inc n h m, MuxQueue_model.after uc dist inc n h m -> Forall (asc (MuxQueue_model.m_file m)) (MuxQueue_model.m_streams m).
Proof.
  intros uc dist inc n h m H. induction H as [|h m k s fuel m' H IH Hk E].
  - cbn [MuxQueue_model.mux0 MuxQueue_model.m_streams]. apply Forall_forall. intros x Hx. apply repeat_spec in Hx. subst x. split; constructor.
  - unfold MuxQueue_model.add_sample in E. destruct (MuxQueue_model.write_loop _ _ _ _ _ _ _ _) as [[[l' file'] maxc']|] eqn:W; [|discriminate]. injection E as <-. cbn [MuxQueue_model.m_streams MuxQueue_model.m_file].
    apply (write_loop_asc _ _ _ _ _ _ _ _ _ _ _ W). clear - IH. revert k. induction IH as [|x l Hx IH IH2]; intros [|k]; cbn [MuxQueue_model.on_nth]; constructor; try assumption. apply IH2.
Qed.
