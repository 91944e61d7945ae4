From Coq Require Import String Arith.
From Verif Require Import Util Str_model Str_proofs CmdLine_model.
Local Open Scope Z_scope.

Lemma eqs_eq a b : eqs a b = true <-> a = b.
Proof.
  revert b; induction a as [|x a IH]; intros [|y b]; cbn; try (split; congruence).
  rewrite andb_true_iff, Z.eqb_eq, IH. split; [intros [-> ->]; reflexivity|intros [= -> ->]; auto].
Qed.
Lemma eqs_refl a : eqs a a = true.
Proof. apply eqs_eq. reflexivity. Qed.
Lemma eqs_ne a b : eqs a b = false <-> a <> b.
Proof. rewrite <- not_true_iff_false, eqs_eq. reflexivity. Qed.

(** searching one character *)
Lemma find_char_app c a b : ~ In c a -> find (a ++ c :: b) [c] = Z.of_nat (length a).
Proof.
  unfold find. intros H. replace (strstr (a ++ c :: b) [c]) with (Some (length a)); [reflexivity|].
  induction a as [|x a IH]; cbn [app strstr is_prefix length].
  - rewrite Z.eqb_refl. reflexivity.
  - destruct (Z.eqb_spec c x) as [->|Hne]; [exfalso; apply H; left; reflexivity|]. cbn [andb].
    rewrite <- IH by (intros Hc; apply H; right; exact Hc). reflexivity.
Qed.
Lemma find_char_none c a : ~ In c a -> find a [c] = -1.
Proof.
  unfold find. intros H. replace (strstr a [c]) with (@None nat); [reflexivity|].
  induction a as [|x a IH]; cbn [strstr is_prefix]; [reflexivity|].
  destruct (Z.eqb_spec c x) as [->|Hne]; [exfalso; apply H; left; reflexivity|]. cbn [andb].
  rewrite <- IH by (intros Hc; apply H; right; exact Hc). reflexivity.
Qed.
Lemma find_char_in c a : In c a -> exists p q, a = p ++ c :: q /\ ~ In c p /\ find a [c] = Z.of_nat (length p).
Proof.
  intros H. assert (E : exists p q, a = p ++ c :: q /\ ~ In c p).
  { induction a as [|x a IH]; [contradiction|]. destruct (Z.eq_dec x c) as [->|Hne].
    - exists [], a. split; [reflexivity|auto].
    - destruct H as [->|H]; [congruence|]. destruct (IH H) as (p & q & -> & Hp). exists (x :: p), q. split; [reflexivity|].
      intros [->|Hc]; [congruence|auto]. }
  destruct E as (p & q & -> & Hp). exists p, q. split; [reflexivity|]. split; [exact Hp|]. apply find_char_app, Hp.
Qed.

(** one or two dashes *)

Lemma slice_mid {A} (a b c : list A) : firstn (length b) (skipn (length a) (a ++ b ++ c)) = b.
Proof. rewrite skipn_app, skipn_all, Nat.sub_diag. cbn. rewrite firstn_app, firstn_all, Nat.sub_diag. cbn. apply app_nil_r. Qed.

Lemma head_dash two r : nonul r -> subString (dashes two ++ r) 0 1 = Some [c_dash].
Proof.
  intros Hr. rewrite subString_in; [destruct two; reflexivity| |destruct two; cbn; lia].
  destruct two; cbn; repeat constructor; unfold c_dash; try lia; exact Hr.
Qed.
Lemma second_dash two r : nonul r -> (two = false -> no_lead_dash r) ->
  exists h, subString (dashes two ++ r) 1 1 = Some h /\ (if eqs h [c_dash] then 2%nat else 1%nat) = length (dashes two).
Proof.
  intros Hr Hn. rewrite subString_in; [| |destruct two; cbn; lia].
  2: { destruct two; cbn; repeat constructor; unfold c_dash; try lia; exact Hr. }
  eexists. split; [reflexivity|]. destruct two; cbn [dashes app skipn]; [reflexivity|].
  destruct r as [|x r]; [reflexivity|]. cbn [firstn eqs length]. destruct (Z.eqb_spec x c_dash) as [->|]; [|reflexivity].
  exfalso. apply (Hn eq_refl r). reflexivity.
Qed.

(** the general parse: first separator at [p] *)
Lemma parse_sep m two body c x :
  nonul body -> (two = false -> no_lead_dash body) ->
  find (dashes two ++ body) [c_colon] = c ->
  x = (if c <? 0 then find (dashes two ++ body) [c_eq] else c) ->
  forall name sep value, body = name ++ sep :: value -> x = Z.of_nat (length (dashes two ++ name)) ->
  parse_arg m (dashes two ++ body) = Option_ name value.
Proof.
  intros Hb Hl Hc Hx name sep value -> Hxl. unfold parse_arg.
  rewrite head_dash by exact Hb. rewrite eqs_refl.
  destruct (second_dash two _ Hb Hl) as (h & -> & Hss). rewrite Hss. rewrite Hc, <- Hx.
  destruct (Z.ltb_spec x 0) as [Hneg|Hpos]; [lia|].
  assert (Hall : nonul (dashes two ++ name ++ sep :: value)).
  { apply Forall_app. split; [|exact Hb]. destruct two; repeat constructor; unfold c_dash; lia. }
  replace (Z.to_nat x) with (length (dashes two) + length name)%nat by (rewrite Hxl, app_length; lia).
  rewrite !subString_in; auto; try (rewrite !app_length; cbn [length]; rewrite ?app_length; cbn [length]; lia).
  f_equal.
  - replace (length (dashes two) + length name - length (dashes two))%nat with (length name) by lia. apply slice_mid.
  - replace (dashes two ++ name ++ sep :: value) with ((dashes two ++ name ++ [sep]) ++ value) by (rewrite <- !app_assoc; reflexivity).
    replace (length (dashes two) + length name + 1)%nat with (length (dashes two ++ name ++ [sep])) by (rewrite !app_length; cbn; lia).
    rewrite skipn_app, skipn_all, Nat.sub_diag. cbn [skipn app]. apply firstn_all2. rewrite (app_length _ value). lia.
Qed.

Lemma not_in_dashes two c : c <> c_dash -> ~ In c (dashes two).
Proof. intros H Hin. destruct two; cbn in Hin; intuition. Qed.
Lemma nil_lead name sep value : no_lead_dash name -> sep <> c_dash -> no_lead_dash (name ++ sep :: value).
Proof. intros H Hs r. destruct name as [|x name]; cbn; [congruence|]. intros [= -> E]. apply (H name). reflexivity. Qed.

Lemma parse_colon m two name value : nonul name -> nonul value -> (two = false -> no_lead_dash name) -> ~ In c_colon name ->
  parse_arg m (dashes two ++ name ++ c_colon :: value) = Option_ name value.
Proof.
  intros Hn Hv Hl Hc.
  assert (Hb : nonul (name ++ c_colon :: value)) by (apply Forall_app; split; [exact Hn|constructor; [unfold c_colon; lia|exact Hv]]).
  assert (Hf : find (dashes two ++ name ++ c_colon :: value) [c_colon] = Z.of_nat (length (dashes two ++ name))).
  { rewrite app_assoc. apply find_char_app. intros Hin. apply in_app_or in Hin. destruct Hin as [Hin|Hin]; [|auto].
    apply (not_in_dashes two c_colon); [unfold c_colon, c_dash; lia|exact Hin]. }
  eapply (parse_sep m two _ _ (Z.of_nat (length (dashes two ++ name)))); eauto.
  - intros Ht. apply nil_lead; [auto|unfold c_colon, c_dash; lia].
  - destruct (Z.ltb_spec (Z.of_nat (length (dashes two ++ name))) 0); [lia|reflexivity].
Qed.
Lemma parse_eq m two name value : nonul name -> nonul value -> (two = false -> no_lead_dash name) ->
  ~ In c_colon name -> ~ In c_colon value -> ~ In c_eq name ->
  parse_arg m (dashes two ++ name ++ c_eq :: value) = Option_ name value.
Proof.
  intros Hn Hv Hl Hc1 Hc2 He.
  assert (Hb : nonul (name ++ c_eq :: value)) by (apply Forall_app; split; [exact Hn|constructor; [unfold c_eq; lia|exact Hv]]).
  assert (Hf : find (dashes two ++ name ++ c_eq :: value) [c_colon] = -1).
  { apply find_char_none. intros Hin. apply in_app_or in Hin. destruct Hin as [Hin|Hin].
    - apply (not_in_dashes two c_colon); [unfold c_colon, c_dash; lia|exact Hin].
    - apply in_app_or in Hin. destruct Hin as [Hin|[Hin|Hin]]; auto. unfold c_eq, c_colon in Hin. lia. }
  assert (Hg : find (dashes two ++ name ++ c_eq :: value) [c_eq] = Z.of_nat (length (dashes two ++ name))).
  { rewrite app_assoc. apply find_char_app. intros Hin. apply in_app_or in Hin. destruct Hin as [Hin|Hin]; [|auto].
    apply (not_in_dashes two c_eq); [unfold c_eq, c_dash; lia|exact Hin]. }
  eapply (parse_sep m two _ _ (Z.of_nat (length (dashes two ++ name)))); eauto.
  - intros Ht. apply nil_lead; [auto|unfold c_eq, c_dash; lia].
Qed.
Lemma parse_eq_colon m two name v1 v2 : nonul name -> nonul v1 -> nonul v2 -> (two = false -> no_lead_dash name) ->
  ~ In c_colon name -> ~ In c_colon v1 ->
  parse_arg m (dashes two ++ name ++ c_eq :: v1 ++ c_colon :: v2) = Option_ (name ++ c_eq :: v1) v2.
Proof.
  intros Hn H1 H2 Hl Hc Hc1.
  replace (dashes two ++ name ++ c_eq :: v1 ++ c_colon :: v2) with (dashes two ++ (name ++ c_eq :: v1) ++ c_colon :: v2)
    by (rewrite <- !app_assoc; reflexivity).
  apply parse_colon; auto.
  - apply Forall_app. split; [auto|constructor; [unfold c_eq; lia|auto]].
  - intros Ht. apply nil_lead; [auto|unfold c_eq, c_dash; lia].
  - intros Hin. apply in_app_or in Hin. destruct Hin as [Hin|[Hin|Hin]]; auto. unfold c_eq, c_colon in Hin. lia.
Qed.
Lemma parse_flag m two name : nonul name -> (two = false -> no_lead_dash name) -> ~ In c_colon name -> ~ In c_eq name ->
  parse_arg m (dashes two ++ name) = Option_ name
    (match lookup name m with Some it => match ctype it with type_bool => str "T" | _ => [] end | None => [] end).
Proof.
  intros Hn Hl Hc He. unfold parse_arg. rewrite head_dash by exact Hn. rewrite eqs_refl.
  destruct (second_dash two _ Hn Hl) as (h & -> & Hss). rewrite Hss.
  rewrite !find_char_none.
  - cbn [Z.ltb Z.compare]. rewrite subString_in.
    + rewrite skipn_app, skipn_all, Nat.sub_diag. cbn [skipn app].
      rewrite firstn_all2 by (rewrite app_length; lia). reflexivity.
    + apply Forall_app. split; [destruct two; repeat constructor; unfold c_dash; lia|exact Hn].
    + rewrite app_length. lia.
  - intros Hin. apply in_app_or in Hin. destruct Hin as [Hin|Hin]; [|auto]. apply (not_in_dashes two c_eq) in Hin; [auto|unfold c_eq, c_dash; lia].
  - intros Hin. apply in_app_or in Hin. destruct Hin as [Hin|Hin]; [|auto]. apply (not_in_dashes two c_colon) in Hin; [auto|unfold c_colon, c_dash; lia].
Qed.
Lemma parse_positional m a : nonul a -> no_lead_dash a -> parse_arg m a = Positional.
Proof.
  intros Ha Hd. unfold parse_arg. rewrite subString_in by (auto; cbn; lia). cbn [skipn].
  destruct a as [|x a]; [reflexivity|]. cbn [firstn eqs]. destruct (Z.eqb_spec x c_dash) as [->|]; [|reflexivity].
  exfalso. apply (Hd a). reflexivity.
Qed.

(** never reads outside the argument *)
Lemma strstr_char_bound s c n : strstr s [c] = Some n -> (n < length s)%nat.
Proof. intros H. apply strstr_le in H. cbn in H. lia. Qed.
Lemma parse_safe m a : nonul a -> parse_arg m a <> OverRead.
Proof.
  intros Ha. unfold parse_arg. rewrite (subString_in a 0 1) by (auto; lia). cbn [skipn].
  destruct a as [|x a]; [discriminate|]. cbn [firstn].
  destruct (eqs [x] [c_dash]) eqn:Ex; [|discriminate].
  apply eqs_eq in Ex. injection Ex as ->. set (s := c_dash :: a) in *.
  rewrite (subString_in s 1 1) by (auto; cbn; lia).
  set (h2 := firstn 1 (skipn 1 s)).
  set (x := if find s [c_colon] <? 0 then find s [c_eq] else find s [c_colon]).
  assert (Hss : ((if eqs h2 [c_dash] then 2 else 1) <= length s)%nat).
  { unfold h2, s. cbn [skipn]. destruct a as [|y a]; cbn; [lia|]. destruct (y =? c_dash); cbn; lia. }
  destruct (Z.ltb_spec x 0) as [Hx|Hx].
  - rewrite subString_in by (auto; lia). discriminate.
  - assert (Hb : (Z.to_nat x < length s)%nat /\ ((if eqs h2 [c_dash] then 2 else 1) <= Z.to_nat x)%nat).
    { assert (G : forall c, c <> c_dash -> 0 <= find s [c] -> (Z.to_nat (find s [c]) < length s)%nat /\ ((if eqs h2 [c_dash] then 2 else 1) <= Z.to_nat (find s [c]))%nat).
      { intros c Hc. unfold find. destruct (strstr s [c]) as [n|] eqn:E; [|lia]. intros _. rewrite Nat2Z.id.
        split; [apply strstr_char_bound in E; exact E|].
        pose proof (strstr_spec s [c]) as HS. rewrite E in HS. destruct HS as [(p & q & Es & <-) _].
        unfold h2. rewrite Es. unfold s in Es. destruct p as [|p0 p]; [cbn in Es; injection Es; congruence|].
        cbn [app skipn length]. destruct p as [|p1 p]; cbn [app firstn eqs length].
        - destruct (Z.eqb_spec c c_dash); [congruence|cbn [andb]; lia].
        - destruct (p1 =? c_dash); cbn; lia. }
      unfold x in *. destruct (find s [c_colon] <? 0); apply G; auto; unfold c_eq, c_colon, c_dash; lia. }
    rewrite !subString_in by (auto; lia). discriminate.
Qed.

(** the option table *)
Lemma lookup_replace n v m k : lookup n m <> None -> lookup k (replace_item n v m) = if eqs n k then Some v else lookup k m.
Proof.
  induction m as [|[a w] m IH]; cbn [replace_item lookup]; [congruence|].
  destruct (eqs a n) eqn:E1.
  - apply eqs_eq in E1. subst a. cbn [lookup]. destruct (eqs n k); reflexivity.
  - intros H. cbn [lookup]. rewrite IH by exact H. destruct (eqs a k) eqn:E2; [|reflexivity].
    apply eqs_eq in E2. subst k. destruct (eqs n a) eqn:E3; [|reflexivity]. apply eqs_eq in E3. subst. rewrite eqs_refl in E1. discriminate.
Qed.
Lemma lookup_insert n v m k : lookup n m = None -> lookup k (insert_item n v m) = if eqs n k then Some v else lookup k m.
Proof.
  induction m as [|[a w] m IH]; cbn [insert_item lookup]; [reflexivity|].
  destruct (eqs a n) eqn:E1; [discriminate|]. intros H. destruct (lts n a); cbn [lookup]; [reflexivity|].
  rewrite IH by exact H. destruct (eqs a k) eqn:E2; [|reflexivity]. apply eqs_eq in E2. subst k.
  destruct (eqs n a) eqn:E3; [|reflexivity]. apply eqs_eq in E3. subst. rewrite eqs_refl in E1. discriminate.
Qed.
Lemma lookup_store n v m k : lookup k (store n v m) = if eqs n k then Some v else lookup k m.
Proof.
  unfold store. destruct (lookup n m) eqn:E; [apply lookup_replace; congruence|apply lookup_insert; exact E].
Qed.
Lemma replace_keys n v m : map fst (replace_item n v m) = map fst m.
Proof. induction m as [|[k w] m IH]; cbn [replace_item]; [reflexivity|]. destruct (eqs k n); cbn; congruence. Qed.
Lemma record_registered n v m : registered n m -> forall k,
  lookup k (record_option n v m) = match lookup k m with
    | Some it => Some (if eqs n k then mkitem (ctype it) (required it) (short_cut it) (values it ++ [v]) else it)
    | None => None end.
Proof.
  intros H k. unfold record_option, push, registered in *. destruct (lookup n m) as [it|] eqn:E; [|congruence].
  rewrite lookup_store. destruct (eqs n k) eqn:Ek.
  - apply eqs_eq in Ek. subst k. rewrite E. reflexivity.
  - destruct (lookup k m); reflexivity.
Qed.

(** first missing *)
Lemma lookup_in n it m : lookup n m = Some it -> In (n, it) m.
Proof.
  induction m as [|[k w] m IH]; cbn; [discriminate|]. destruct (eqs k n) eqn:E.
  - apply eqs_eq in E. subst. intros [= ->]. auto.
  - intros H. right. auto.
Qed.
Lemma in_lookup n it m : NoDup (map fst m) -> In (n, it) m -> lookup n m = Some it.
Proof.
  induction m as [|[k w] m IH]; cbn; [contradiction|]. intros ND [[= -> ->]|H]; inversion ND; subst.
  - rewrite eqs_refl. reflexivity.
  - destruct (eqs k n) eqn:E; [|auto]. apply eqs_eq in E. subst k. exfalso. apply H2. apply in_map_iff. exists (n, it). auto.
Qed.
Lemma missing_spec m : NoDup (map fst m) -> (first_missing m = None <->
  forall n it, lookup n m = Some it -> required it = true -> values it <> []).
Proof.
  intros ND. split.
  - intros H n it Hl Hr. apply lookup_in in Hl. clear ND. induction m as [|[k w] m IH]; [contradiction|]. cbn [first_missing] in H.
    destruct (required w && match values w with [] => true | _ => false end) eqn:E; [discriminate|].
    destruct Hl as [[= -> ->]|Hl]; [|auto]. rewrite Hr in E. destruct (values it); [discriminate|congruence].
  - intros H. induction m as [|[k w] m IH]; [reflexivity|]. cbn [first_missing].
    destruct (required w && match values w with [] => true | _ => false end) eqn:E.
    + apply andb_prop in E. destruct E as [E1 E2]. exfalso. apply (H k w); [cbn; rewrite eqs_refl; reflexivity|exact E1|]. destruct (values w); [reflexivity|discriminate].
    + cbn in ND. inversion ND; subst. apply IH; [auto|]. intros n it Hl. apply (H n it). cbn. destruct (eqs k n) eqn:Ek; [|exact Hl].
      apply eqs_eq in Ek. subst k. exfalso. apply H2. apply lookup_in in Hl. apply in_map_iff. exists (n, it). auto.
Qed.
Lemma record_keys n v m : registered n m -> map fst (record_option n v m) = map fst m.
Proof.
  unfold registered, record_option, push, store. destruct (lookup n m) as [it|] eqn:E; [|congruence]. intros _. apply replace_keys.
Qed.

Lemma parse_spoken m a : well_formed m a -> parse_arg m (render a) =
  match a with Pos _ => Positional | Colon _ n v | Equal _ n v => Option_ n v end.
Proof.
  destruct a as [t|two n v|two n v]; cbn [well_formed render].
  - intros [A B]. apply parse_positional; auto.
  - intros (A & B & C & D & _). apply parse_colon; auto.
  - intros (A & B & C & D & E & F & _). apply parse_eq; auto.
Qed.
Lemma well_formed_ext m m' a : (forall n, registered n m -> registered n m') -> well_formed m a -> well_formed m' a.
Proof. intros H. destruct a; cbn; intuition. Qed.

Lemma process_args_ok l : forall m, (forall a, In a l -> well_formed m a) ->
  exists m', process_args (map render l) m = Some m' /\ map fst m' = map fst m /\
   (forall n, match lookup n m, lookup n m' with
     | Some it, Some it' => ctype it' = ctype it /\ required it' = required it /\ values it' = values it ++ given n l
     | None, None => True | _, _ => False end).
Proof.
  induction l as [|a l IH]; intros m H.
  - exists m. split; [reflexivity|]. split; [reflexivity|]. intros n. destruct (lookup n m); auto. rewrite app_nil_r. auto.
  - cbn [map process_args]. rewrite parse_spoken by (apply H; left; reflexivity).
    assert (Hl : forall b, In b l -> well_formed m b) by (intros; apply H; right; assumption).
    pose proof (H a (or_introl eq_refl)) as Ha.
    assert (G : forall k v, registered k m -> a = Colon false k v \/ a = Colon true k v \/ a = Equal false k v \/ a = Equal true k v ->
      exists m', process_args (map render l) (record_option k v m) = Some m' /\ map fst m' = map fst m /\
       (forall n, match lookup n m, lookup n m' with
         | Some it, Some it' => ctype it' = ctype it /\ required it' = required it /\ values it' = values it ++ given n (a :: l)
         | None, None => True | _, _ => False end)).
    { intros k v Hk Hform.
      destruct (IH (record_option k v m)) as (m' & E & EK & EV).
      - intros b Hb. apply (well_formed_ext m); [|apply Hl, Hb]. intros n. unfold registered. rewrite (record_registered k v m Hk).
        destruct (lookup n m); congruence.
      - exists m'. split; [exact E|]. split; [rewrite EK; apply record_keys, Hk|].
        intros n. specialize (EV n). rewrite (record_registered k v m Hk) in EV.
        assert (Eg : given n (a :: l) = (if eqs k n then [v] else []) ++ given n l).
        { destruct Hform as [->|[->|[->| ->]]]; reflexivity. }
        rewrite Eg. destruct (lookup n m) as [it|]; [|exact EV]. destruct (lookup n m') as [it'|]; [|exact EV].
        destruct (eqs k n); cbn [ctype required values] in EV |- *; [|exact EV]. destruct EV as (A & B & C). rewrite C, <- app_assoc. auto. }
    destruct a as [t|two k v|two k v].
    + destruct (IH m Hl) as (m' & E & EK & EV). exists m'. auto.
    + cbn in Ha. apply (G k v); [tauto|]. destruct two; auto.
    + cbn in Ha. apply (G k v); [tauto|]. destruct two; auto.
Qed.

Lemma process_ok l m : NoDup (map fst m) -> (forall a, In a l -> well_formed m a) ->
  exists ok m', process (map render l) m = Some (ok, m') /\
   (forall n, registered n m -> vals n m' = vals n m ++ given n l) /\
   (ok = true <-> forall n it, lookup n m = Some it -> required it = true -> vals n m ++ given n l <> []).
Proof.
  intros ND H. destruct (process_args_ok l m H) as (m' & E & EK & EV). unfold process. rewrite E.
  eexists. exists m'. split; [reflexivity|]. split.
  - intros n Hn. unfold vals, registered in *. specialize (EV n). destruct (lookup n m); [|congruence]. destruct (lookup n m'); [|contradiction]. tauto.
  - assert (ND' : NoDup (map fst m')) by (rewrite EK; exact ND).
    pose proof (missing_spec m' ND') as HM.
    transitivity (first_missing m' = None); [destruct (first_missing m'); split; congruence|]. rewrite HM. split.
    + intros H1 n it Hl Hr. pose proof (EV n) as EVn. rewrite Hl in EVn. destruct (lookup n m') as [it'|] eqn:El; [|contradiction].
      destruct EVn as (A & B & C). unfold vals. rewrite Hl, <- C. apply (H1 n it' El). congruence.
    + intros H1 n it' Hl Hr. pose proof (EV n) as EVn. rewrite Hl in EVn. destruct (lookup n m) as [it|] eqn:El; [|contradiction].
      destruct EVn as (A & B & C). rewrite C. specialize (H1 n it El ltac:(congruence)). unfold vals in H1. rewrite El in H1. exact H1.
Qed.
Lemma process_safe args : forall m, Forall nonul args -> process args m <> None.
Proof.
  intros m H. unfold process. assert (G : process_args args m <> None).
  { revert m. induction args as [|a args IH]; intros m; [discriminate|]. inversion H; subst. cbn [process_args].
    pose proof (parse_safe m a H2). destruct (parse_arg m a); [apply IH; auto|apply IH; auto|congruence]. }
  destruct (process_args args m); [discriminate|congruence].
Qed.
