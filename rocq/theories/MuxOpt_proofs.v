(** Proofs about MuxOpt_model. *)
From Coq Require Import String ZifyBool ZifyNat.
From Verif Require Import Util Str_model Str_proofs CmdLine_model CmdLine_proofs MuxOpt_model.
From Coq Require Import List.
Import ListNotations.
Local Open Scope Z_scope.

(** ** The command line *)
Definition named_value (m : commands) (w : word) : option (list Z * list Z) :=
  match w with
  | Said (Pos _) => None
  | Said (Colon _ n v) | Said (Equal _ n v) => Some (n, v)
  | Bare _ n => Some (n, if switch m n then str "T" else [])
  end.
Lemma parse_word : forall m w, acceptable m w -> parse_arg m (text w) = match named_value m w with None => Positional | Some (n, v) => Option_ n v end.
Proof.
  intros m [[t|two n v|two n v]|two n] A; cbn [acceptable text named_value render] in *.
  - apply parse_positional; apply A.
  - destruct A as (A & B & C & D & _). apply parse_colon; auto.
  - destruct A as (A & B & C & D & E & F & _). apply parse_eq; auto.
  - destruct A as (A & B & C & D & _). rewrite parse_flag by assumption. unfold switch. destruct (lookup n m) as [it|]; [destruct (ctype it)|]; reflexivity.
Qed.
Lemma vals_record : forall n v m k, nameable m n -> vals k (record_option n v m) = vals k m ++ (if eqs n k then [v] else [])
  /\ switch (record_option n v m) k = switch m k /\ (registered k m -> registered k (record_option n v m)).
Proof.
  intros n v m k N. unfold vals, switch, registered. destruct (lookup n m) as [it|] eqn:L.
  - assert (R : registered n m) by (unfold registered; congruence). rewrite (record_registered n v m R k). destruct (lookup k m) as [ik|] eqn:K.
    + destruct (eqs n k) eqn:E; cbn [ctype values]; (split; [try reflexivity; rewrite app_nil_r; reflexivity|split; [reflexivity|discriminate]]).
    + destruct (eqs n k) eqn:E; [apply eqs_eq in E; subst; congruence|]. repeat split; try reflexivity. congruence.
  - destruct N as [N|N]; [unfold registered in N; congruence|]. unfold record_option. rewrite L.
    assert (S1 : match n with [s] => by_shortcut s m | _ => None end = None) by (destruct n as [|a [|b n]]; try reflexivity; cbn in N; lia). rewrite S1. unfold push. rewrite lookup_store, eqs_refl. cbn [ctype required short_cut values app].
    rewrite !lookup_store. destruct (eqs n k) eqn:E.
    + apply eqs_eq in E. subst k. rewrite L. cbn. repeat split; congruence.
    + destruct (lookup k m); (split; [rewrite app_nil_r; reflexivity|split; [reflexivity|congruence]]).
Qed.
Lemma nameable_record : forall n v m k, nameable m n -> nameable m k -> nameable (record_option n v m) k.
Proof. intros n v m k N [K|K]; [left; apply vals_record; assumption|right; exact K]. Qed.
Lemma acceptable_record : forall n v m w, nameable m n -> acceptable m w -> acceptable (record_option n v m) w.
Proof.
  intros n v m [[t|two k x|two k x]|two k] N A; cbn [acceptable] in *; try exact A; pose proof (nameable_record n v m k N); intuition.
Qed.
Lemma words_values : forall l m, Forall (acceptable m) l -> exists m', process_args (map text l) m = Some m' /\ (forall k, switch m' k = switch m k) /\ forall n, vals n m' = vals n m ++ flat_map (gives (switch m) n) l.
Proof.
  induction l as [|w l IH]; intros m F.
  - exists m. split; [reflexivity|]. split; [reflexivity|]. intros n. symmetry. apply app_nil_r.
  - pose proof (Forall_inv F) as A. apply Forall_inv_tail in F. cbn [map process_args flat_map]. rewrite (parse_word m w A).
    destruct (named_value m w) as [[n v]|] eqn:E.
    + assert (N : nameable m n). { destruct w as [[t|two k x|two k x]|two k]; cbn in E; try discriminate; injection E as <- <-; cbn in A; intuition. }
      destruct (IH (record_option n v m)) as (m' & P & S1 & V); [eapply Forall_impl; [|exact F]; intros u; apply acceptable_record; exact N|].
      exists m'. split; [exact P|]. split; [intros k; rewrite S1; apply vals_record; exact N|]. intros k. rewrite V. destruct (vals_record n v m k N) as (V1 & _ & _). rewrite V1, <- app_assoc. f_equal. f_equal.
      * destruct w as [[t|two k' x|two k' x]|two k']; cbn in E |- *; try discriminate; injection E as <- <-; reflexivity.
      * assert (G : forall u, gives (switch (record_option n v m)) k u = gives (switch m) k u). { intros [[t|two k' x|two k' x]|two k']; try reflexivity. cbn. destruct (vals_record n v m k' N) as (_ & S2 & _). rewrite S2. reflexivity. }
        clear -G. induction l as [|u l IH]; [reflexivity|]. cbn [flat_map]. rewrite G, IH. reflexivity.
    + destruct w as [[t|two k x|two k x]|two k]; cbn in E; try discriminate. destruct (IH m F) as (m' & P & S1 & V). exists m'. split; [exact P|]. split; [exact S1|]. intros n. rewrite V. reflexivity.
Qed.
Lemma words_process : forall l m, Forall (acceptable m) l -> exists ok m', process (map text l) m = Some (ok, m') /\ forall n, vals n m' = vals n m ++ flat_map (gives (switch m) n) l.
Proof. intros l m F. destruct (words_values l m F) as (m' & P & _ & V). unfold process. rewrite P. eexists _, m'. split; [reflexivity|exact V]. Qed.

(** ** Numbers *)
Lemma scan_digits_all : forall ds v any, Forall (fun c => 48 <= c <= 57) ds -> scan_digits v any ds = (fold_left (fun v c => v * 10 + (c - 48)) ds v, match ds with [] => any | _ => true end).
Proof.
  induction ds as [|c ds IH]; intros v any F; [reflexivity|]. pose proof (Forall_inv F) as C. cbv beta in C. cbn [scan_digits fold_left]. unfold is_digit. replace ((48 <=? c) && (c <=? 57)) with true by lia. rewrite IH by exact (Forall_inv_tail F). destruct ds; reflexivity.
Qed.
Lemma digits_nonneg : forall ds v, 0 <= v -> Forall (fun c => 48 <= c <= 57) ds -> 0 <= fold_left (fun v c => v * 10 + (c - 48)) ds v.
Proof. induction ds as [|c ds IH]; intros v V F; [exact V|]. cbn [fold_left]. pose proof (Forall_inv F) as C. cbv beta in C. apply IH; [lia|exact (Forall_inv_tail F)]. Qed.
Lemma scan_numeral : forall ds v, numeral ds v -> scan_digits 0 false ds = (v, true) /\ (exists c r, ds = c :: r /\ 48 <= c <= 57).
Proof.
  intros ds v (N & F & ->). rewrite (scan_digits_all ds 0 false F). destruct ds as [|c r]; [congruence|]. split; [reflexivity|]. exists c, r. split; [reflexivity|exact (Forall_inv F)].
Qed.
Lemma scan_is : forall t z, number t z -> scan_number t = Some z.
Proof.
  intros t z [(ds & -> & N)|[(ds & v & -> & N & ->)|(ds & -> & N)]]; destruct (scan_numeral _ _ N) as (E & c & r & D & C); unfold scan_number.
  - subst ds. cbn [drop_white]. unfold is_white. replace ((c =? 32) || ((9 <=? c) && (c <=? 13))) with false by lia.
    assert (M : match c :: r with 45 :: r => (true, r) | 43 :: r => (false, r) | _ => (false, c :: r) end = (false, c :: r)).
    { do 6 (destruct c as [|c|c]; try lia; try reflexivity). all: try (destruct c as [c|c|]; try reflexivity; try lia). all: repeat (destruct c as [c|c|]; try reflexivity; try lia). }
    rewrite M, E. reflexivity.
  - cbn. rewrite E. reflexivity.
  - cbn. rewrite E. reflexivity.
Qed.
Lemma int64_is : forall t z, is64 t z -> int64_of t = Got z.
Proof. intros t z [N R]. unfold int64_of. rewrite (scan_is t z N). replace ((- 2 ^ 63 <=? z) && (z <? 2 ^ 63)) with true by lia. reflexivity. Qed.
Lemma uint64_is : forall t z, number t z -> 0 <= z < 2 ^ 64 -> uint64_of t = Got z.
Proof. intros t z N R. unfold uint64_of. rewrite (scan_is t z N). replace (Z.abs z <? 2 ^ 64) with true by lia. rewrite Z.mod_small by exact R. reflexivity. Qed.
Lemma no_digit : forall t, (forall c, In c t -> ~ 48 <= c <= 57) -> int64_of t = Throws /\ uint64_of t = Throws.
Proof.
  intros t H. assert (S1 : scan_number t = None).
  { unfold scan_number. assert (D : forall u, (forall c, In c u -> ~ 48 <= c <= 57) -> scan_digits 0 false u = (0, false)).
    { intros [|c r] Hu; [reflexivity|]. cbn. unfold is_digit. specialize (Hu c (or_introl eq_refl)). replace ((48 <=? c) && (c <=? 57)) with false by lia. reflexivity. }
    assert (W : forall c, In c (drop_white t) -> In c t). { clear. induction t as [|a t IH]; intros c I; [exact I|]. cbn [drop_white] in I. destruct (is_white a); [right; apply IH; exact I|exact I]. }
    assert (Q : forall c, In c (drop_white t) -> ~ 48 <= c <= 57) by (intros c I; apply H, W, I). revert Q. generalize (drop_white t). intros u Q.
    destruct (match u with 45 :: r => (true, r) | 43 :: r => (false, r) | _ => (false, u) end) as [neg r] eqn:E.
    assert (SUB : forall c, In c r -> In c u). { assert (r = u \/ exists a, u = a :: r) as [->|(a & ->)]; [|auto|intros c I; right; exact I].
      destruct u as [|a u]; [injection E as _ <-; left; reflexivity|]. revert E. destruct (Z.eq_dec a 45) as [->|N1]; [intros E; injection E as _ <-; right; eexists; reflexivity|]. destruct (Z.eq_dec a 43) as [->|N2]; [intros E; injection E as _ <-; right; eexists; reflexivity|].
      intros E. left. assert (M : match a :: u with 45 :: r => (true, r) | 43 :: r => (false, r) | _ => (false, a :: u) end = (false, a :: u)).
      { clear -N1 N2. destruct a as [|p|p]; try reflexivity. repeat (destruct p as [p|p|]; try reflexivity; try congruence). }
      rewrite M in E. injection E as _ <-. reflexivity. }
    rewrite (D r) by (intros c I; apply Q, SUB, I). reflexivity. }
  unfold int64_of, uint64_of. rewrite S1. split; reflexivity.
Qed.

(** ** The calls *)
Lemma get_vals : forall n i m, get_value n i m = nth_error (vals n m) i.
Proof. intros. unfold get_value, vals. destruct (lookup n m); [reflexivity|]. destruct i; reflexivity. Qed.
Lemma count_vals : forall n m, get_command_count n m = length (vals n m).
Proof. intros. unfold get_command_count, vals. destruct (lookup n m); reflexivity. Qed.
Lemma specified_vals : forall n m, command_specified n 0 m = match vals n m with [] => false | _ => true end.
Proof. intros. unfold command_specified, vals. destruct (lookup n m) as [it|]; [|reflexivity]. destruct (values it); reflexivity. Qed.
Lemma value_first : forall A n m t r (f : list Z -> res A), vals n m = t :: r -> value m n 0 f = f t.
Proof. intros. unfold value. rewrite get_vals, H. reflexivity. Qed.
Lemma option_none : forall m n f, vals n m = [] -> option_ m n f = Got [].
Proof. intros. unfold option_. rewrite specified_vals, H. reflexivity. Qed.
Lemma option_some : forall m n f t r a, vals n m = t :: r -> f t = Got a -> option_ m n f = Got [a].
Proof. intros. unfold option_. rewrite specified_vals, H, (value_first _ _ _ _ _ _ H), H0. reflexivity. Qed.
Lemma run_gots : forall ls rest, run (map Got ls ++ rest) = prepend (concat ls) (run rest).
Proof.
  induction ls as [|l ls IH]; intros rest; cbn [map app run concat].
  - destruct (run rest); reflexivity.
  - rewrite IH. destruct (run rest); cbn; rewrite app_assoc; reflexivity.
Qed.
Lemma run_all : forall ls, run (map Got ls) = Code 0 (concat ls).
Proof. intros ls. pose proof (run_gots ls []) as R. rewrite app_nil_r in R. rewrite R. cbn. rewrite app_nil_r. reflexivity. Qed.
Lemma Forall2_nth : forall A B (R : A -> B -> Prop) l k, Forall2 R l k -> forall i a, nth_error l i = Some a -> exists b, nth_error k i = Some b /\ R a b.
Proof. induction 1 as [|a b l k H F IH]; intros [|i] x E; try discriminate; [injection E as <-; exists b; split; [reflexivity|exact H]|apply (IH i x E)]. Qed.
Lemma clips_map : forall m k j names starts ends ss es, length names = length starts -> length names = length ends -> Forall2 is64 starts ss -> Forall2 is64 ends es ->
  k = length names -> (forall i, (i < k)%nat -> nth_error (vals (str "input") m) (j + i) = nth_error names i /\ nth_error (vals (str "starttime") m) (j + i) = nth_error starts i /\ nth_error (vals (str "endtime") m) (j + i) = nth_error ends i) ->
  map (clip m) (seq j k) = map Got (map (fun c => [c]) (clips names ss es)).
Proof.
  induction k as [|k IH]; intros j names starts ends ss es L1 L2 F1 F2 K H.
  - destruct names; [reflexivity|discriminate].
  - destruct names as [|n names]; [discriminate|]. destruct starts as [|s starts]; [discriminate|]. destruct ends as [|e ends]; [discriminate|].
    inversion F1 as [|s' sz st ss' S1 S2]; subst. inversion F2 as [|e' ez et es' E1 E2]; subst. cbn [seq map]. unfold clips. cbn [combine map fst snd]. f_equal.
    + destruct (H 0%nat ltac:(lia)) as (A & B & C). rewrite Nat.add_0_r in A, B, C. cbn [nth_error] in A, B, C. unfold clip, value. rewrite !get_vals, A, B, C, (int64_is _ _ S1). cbn [bind]. rewrite (int64_is _ _ E1). reflexivity.
    + apply (IH (Datatypes.S j) names starts ends ss' es'); cbn [length] in *; try lia; try assumption. intros i I. specialize (H (Datatypes.S i) ltac:(lia)). rewrite Nat.add_succ_r in H. exact H.
Qed.
Lemma clips_of : forall m ss es, length (vals (str "input") m) = length (vals (str "starttime") m) -> length (vals (str "input") m) = length (vals (str "endtime") m) ->
  Forall2 is64 (vals (str "starttime") m) ss -> Forall2 is64 (vals (str "endtime") m) es ->
  map (clip m) (seq 0 (get_command_count (str "input") m)) = map Got (map (fun c => [c]) (clips (vals (str "input") m) ss es)).
Proof.
  intros m ss es L1 L2 F1 F2. apply (clips_map m _ 0 (vals (str "input") m) (vals (str "starttime") m) (vals (str "endtime") m)); try assumption; [apply count_vals|]. intros i _. repeat split.
Qed.
Lemma counts_same : forall m, length (vals (str "input") m) = length (vals (str "starttime") m) -> length (vals (str "input") m) = length (vals (str "endtime") m) -> counts_differ m = false.
Proof. intros m A B. unfold counts_differ. rewrite !count_vals, <- A, <- B, Nat.eqb_refl. reflexivity. Qed.
Lemma concat_single : forall A (l : list A), concat (map (fun c => [c]) l) = l.
Proof. induction l as [|a l IH]; [reflexivity|]. cbn. rewrite IH. reflexivity. Qed.
Lemma bool_yes : forall t, bool_of t = true <-> In t yes.
Proof.
  intros t. unfold bool_of, yes. cbn [In]. rewrite !Bool.orb_true_iff, !eqs_eq. intuition.
Qed.
Lemma option_opt : forall m n f (g : act -> Prop), (forall t, first_value n m t -> exists a, f t = Got a) ->
  exists l, option_ m n f = Got l /\ (forall a, In a l <-> exists t, first_value n m t /\ f t = Got a).
Proof.
  intros m n f g H. unfold first_value in *. destruct (vals n m) as [|t r] eqn:E.
  - exists []. split; [apply option_none; exact E|]. intros a. split; [intros []|]. intros (t & (r & X) & _). discriminate.
  - destruct (H t (ex_intro _ r eq_refl)) as (a & A). exists [a]. split; [eapply option_some; eassumption|]. intros b. split.
    + intros [<-|[]]. exists t. split; [exists r; reflexivity|exact A].
    + intros (t' & (r' & X) & Y). injection X as <- <-. rewrite A in Y. injection Y as <-. left. reflexivity.
Qed.
Lemma flag_is : forall b t, (b = true <-> In t yes) <-> b = bool_of t.
Proof. intros b t. rewrite <- bool_yes. destruct b, (bool_of t); intuition; discriminate. Qed.
Lemma flag_not : forall b t, (b = false <-> In t yes) <-> b = negb (bool_of t).
Proof. intros b t. rewrite <- bool_yes. destruct b, (bool_of t); intuition; discriminate. Qed.
Lemma first_fun : forall n m t u, first_value n m t -> first_value n m u -> t = u.
Proof. intros n m t u (r & A) (q & B). rewrite A in B. injection B. auto. Qed.
Lemma mux_calls : forall m out ss es, readable m -> length (vals (str "input") m) = length (vals (str "starttime") m) -> length (vals (str "input") m) = length (vals (str "endtime") m) ->
  Forall2 is64 (vals (str "starttime") m) ss -> Forall2 is64 (vals (str "endtime") m) es -> first_value (str "output") m out ->
  exists setts, mp4_mux m = Code 0 (setts ++ Start out :: clips (vals (str "input") m) ss es ++ [End]) /\ sets m setts.
Proof.
  intros m out ss es (R1 & R2 & R3) L1 L2 F1 F2 (ro & O). unfold mp4_mux. rewrite (counts_same m L1 L2), (clips_of m ss es L1 L2 F1 F2).
  destruct (option_opt m (str "maxdistance") (fun v => bind (int64_of v) (fun z => Got (MaxDistance (z mod 2 ^ 64)))) (fun _ => True)) as (l1 & E1 & I1).
  { intros t T. destruct (R1 t T) as (z & Z1). rewrite (int64_is t z Z1). eexists. reflexivity. }
  destruct (option_opt m (str "usedecodingdistance") (fun v => Got (CompositionInDistance (negb (bool_of v)))) (fun _ => True)) as (l2 & E2 & I2); [eauto|].
  destruct (option_opt m (str "audiotimescale") (fun v => bind (uint64_of v) (fun z => Got (set_stream_time_scale z true))) (fun _ => True)) as (l3 & E3 & I3).
  { intros t T. destruct (R2 t T) as (z & Z1 & Z2). rewrite (uint64_is t z Z1 Z2). eexists. reflexivity. }
  destruct (option_opt m (str "videotimescale") (fun v => bind (uint64_of v) (fun z => Got (set_stream_time_scale z true))) (fun _ => True)) as (l4 & E4 & I4).
  { intros t T. destruct (R3 t T) as (z & Z1 & Z2). rewrite (uint64_is t z Z1 Z2). eexists. reflexivity. }
  destruct (option_opt m (str "aacfix") (fun v => Got (AacFix (bool_of v))) (fun _ => True)) as (l5 & E5 & I5); [eauto|].
  destruct (option_opt m (str "ctts") (fun v => Got (CttsOffset (bool_of v))) (fun _ => True)) as (l6 & E6 & I6); [eauto|].
  rewrite E1, E2, E3, E4, E5, E6, (value_first _ _ _ _ _ _ O).
  exists (l1 ++ l2 ++ l3 ++ l4 ++ l5 ++ l6). split.
  - change ([Got l1; Got l2; Got l3; Got l4; Got l5; Got l6; Got [Start out]] ++ map Got (map (fun c => [c]) (clips (vals (str "input") m) ss es)) ++ [Got [End]])
      with (map Got ([l1; l2; l3; l4; l5; l6; [Start out]]) ++ map Got (map (fun c => [c]) (clips (vals (str "input") m) ss es)) ++ map Got [[End]]).
    rewrite <- !map_app, run_all. f_equal. rewrite !concat_app, concat_single. cbn. rewrite <- !app_assoc. reflexivity.
  - assert (G : forall a, In a (l1 ++ l2 ++ l3 ++ l4 ++ l5 ++ l6) <-> In a l1 \/ In a l2 \/ In a l3 \/ In a l4 \/ In a l5 \/ In a l6) by (intros a; rewrite !in_app_iff; reflexivity).
    assert (U : forall t x, (exists z, number t z /\ 0 <= z < 2 ^ 64) -> (number t x <-> uint64_of t = Got x)).
    { intros t x (z & N & B). rewrite (uint64_is t z N B). split; [intros X; apply scan_is in N; apply scan_is in X; congruence|intros X; injection X as <-; exact N]. }
    assert (V : forall t x, (exists z, is64 t z) -> (is64 t x <-> int64_of t = Got x)).
    { intros t x (z & N). rewrite (int64_is t z N). split; [intros [X _]; destruct N as [N _]; apply scan_is in N; apply scan_is in X; congruence|intros X; injection X as <-; exact N]. }
    assert (D3 : forall a, In a l3 -> exists x, a = AudioTimeScale x) by (intros a I; apply I3 in I as (t & T & Q); destruct (uint64_of t); cbn in Q; try discriminate; injection Q as <-; eexists; reflexivity).
    assert (D4 : forall a, In a l4 -> exists x, a = AudioTimeScale x) by (intros a I; apply I4 in I as (t & T & Q); destruct (uint64_of t); cbn in Q; try discriminate; injection Q as <-; eexists; reflexivity).
    assert (D1 : forall a, In a l1 -> exists x, a = MaxDistance x) by (intros a I; apply I1 in I as (t & T & Q); destruct (int64_of t); cbn in Q; try discriminate; injection Q as <-; eexists; reflexivity).
    assert (D2 : forall a, In a l2 -> exists x, a = CompositionInDistance x) by (intros a I; apply I2 in I as (t & T & Q); injection Q as <-; eexists; reflexivity).
    assert (D5 : forall a, In a l5 -> exists x, a = AacFix x) by (intros a I; apply I5 in I as (t & T & Q); injection Q as <-; eexists; reflexivity).
    assert (D6 : forall a, In a l6 -> exists x, a = CttsOffset x) by (intros a I; apply I6 in I as (t & T & Q); injection Q as <-; eexists; reflexivity).
    Ltac others := match goal with D : forall a, In a ?l -> exists x, a = _, I : In _ ?l |- _ => apply D in I as (? & I); discriminate end.
    unfold sets. repeat match goal with |- _ /\ _ => split end.
    + apply Forall_forall. intros a I. apply G in I. destruct I as [I|[I|[I|[I|[I|I]]]]]; [apply D1 in I|apply D2 in I|apply D3 in I|apply D4 in I|apply D5 in I|apply D6 in I]; destruct I as (x & ->); exact Logic.I.
    + intros x. rewrite G. split.
      * intros [I|[I|[I|[I|[I|I]]]]]; try others. apply I1 in I as (t & T & Q). specialize (V t). destruct (int64_of t) as [z| |]; cbn in Q; try discriminate. injection Q as <-. exists t, z. split; [exact T|]. split; [apply V; [exact (R1 t T)|reflexivity]|reflexivity].
      * intros (t & z & T & N & ->). left. apply I1. exists t. split; [exact T|]. rewrite (int64_is t z N). reflexivity.
    + intros b. rewrite G. split.
      * intros [I|[I|[I|[I|[I|I]]]]]; try others. apply I2 in I as (t & T & Q). injection Q as Q. exists t. split; [exact T|]. apply flag_not. symmetry. exact Q.
      * intros (t & T & N). right; left. apply I2. exists t. split; [exact T|]. apply flag_not in N. subst b. reflexivity.
    + intros x. rewrite G. split.
      * intros [I|[I|[I|[I|[I|I]]]]]; try others.
        -- apply I3 in I as (t & T & Q). exists t. split; [left; exact T|]. apply (U t x (R2 t T)). destruct (uint64_of t); cbn in Q; try discriminate. injection Q as <-. reflexivity.
        -- apply I4 in I as (t & T & Q). exists t. split; [right; exact T|]. apply (U t x (R3 t T)). destruct (uint64_of t); cbn in Q; try discriminate. injection Q as <-. reflexivity.
      * intros (t & [T|T] & N).
        -- right; right; left. apply I3. exists t. split; [exact T|]. apply (U t x (R2 t T)) in N. rewrite N. reflexivity.
        -- do 3 right; left. apply I4. exists t. split; [exact T|]. apply (U t x (R3 t T)) in N. rewrite N. reflexivity.
    + intros x. rewrite G. intros [I|[I|[I|[I|[I|I]]]]]; others.
    + intros b. rewrite G. split.
      * intros [I|[I|[I|[I|[I|I]]]]]; try others. apply I5 in I as (t & T & Q). injection Q as Q. exists t. split; [exact T|]. apply flag_is. symmetry. exact Q.
      * intros (t & T & N). do 4 right; left. apply I5. exists t. split; [exact T|]. apply flag_is in N. subst b. reflexivity.
    + intros b. rewrite G. split.
      * intros [I|[I|[I|[I|[I|I]]]]]; try others. apply I6 in I as (t & T & Q). injection Q as Q. exists t. split; [exact T|]. apply flag_is. symmetry. exact Q.
      * intros (t & T & N). do 5 right. apply I6. exists t. split; [exact T|]. apply flag_is in N. subst b. reflexivity.
Qed.
Lemma ts_calls : forall m out ss es, (forall t, first_value (str "ctts") m t -> exists z, is64 t z) -> length (vals (str "input") m) = length (vals (str "starttime") m) -> length (vals (str "input") m) = length (vals (str "endtime") m) ->
  Forall2 is64 (vals (str "starttime") m) ss -> Forall2 is64 (vals (str "endtime") m) es -> first_value (str "output") m out ->
  exists setts, ts_mux m = Code 0 (setts ++ Start out :: clips (vals (str "input") m) ss es ++ [End])
    /\ forall a, In a setts <-> exists t z b, first_value (str "ctts") m t /\ is64 t z /\ (b = false <-> z = 0) /\ a = CttsOffset b.
Proof.
  intros m out ss es R L1 L2 F1 F2 (ro & O). unfold ts_mux. rewrite (counts_same m L1 L2), (clips_of m ss es L1 L2 F1 F2), specified_vals, O. cbn [negb].
  destruct (option_opt m (str "ctts") (fun v => bind (int64_of v) (fun z => Got (CttsOffset (negb (z =? 0))))) (fun _ => True)) as (l1 & E1 & I1).
  { intros t T. destruct (R t T) as (z & Z1). rewrite (int64_is t z Z1). eexists. reflexivity. }
  rewrite E1, (value_first _ _ _ _ _ _ O). exists l1. split.
  - change ([Got l1; Got [Start out]] ++ map Got (map (fun c => [c]) (clips (vals (str "input") m) ss es)) ++ [Got [End]])
      with (map Got ([l1; [Start out]]) ++ map Got (map (fun c => [c]) (clips (vals (str "input") m) ss es)) ++ map Got [[End]]).
    rewrite <- !map_app, run_all. f_equal. rewrite !concat_app, concat_single. cbn. rewrite <- !app_assoc. reflexivity.
  - intros a. rewrite I1. split.
    + intros (t & T & Q). destruct (R t T) as (z & N). rewrite (int64_is t z N) in Q. cbn in Q. injection Q as <-. exists t, z, (negb (z =? 0)). split; [exact T|]. split; [exact N|]. split; [lia|reflexivity].
    + intros (t & z & b & T & N & B & ->). exists t. split; [exact T|]. rewrite (int64_is t z N). cbn. f_equal. f_equal. destruct b, (Z.eqb_spec z 0); intuition.
Qed.
Lemma refused : forall m, length (vals (str "input") m) <> length (vals (str "starttime") m) \/ length (vals (str "input") m) <> length (vals (str "endtime") m) -> mp4_mux m = Code 2020 [] /\ ts_mux m = Code 2020 [].
Proof.
  intros m H. assert (C : counts_differ m = true). { unfold counts_differ. rewrite !count_vals. lia. } unfold mp4_mux, ts_mux. rewrite C. split; reflexivity.
Qed.
Lemma ts_no_output : forall m, length (vals (str "input") m) = length (vals (str "starttime") m) -> length (vals (str "input") m) = length (vals (str "endtime") m) -> vals (str "output") m = [] -> ts_mux m = Code 2021 [].
Proof. intros m A B O. unfold ts_mux. rewrite (counts_same m A B), specified_vals, O. reflexivity. Qed.

(** ** The options of mgcli *)
Definition all_names : list (list Z) := map fst declared.
Lemma lookup_key : forall n m it, lookup n m = Some it -> In (n, it) m.
Proof.
  intros n m. induction m as [|[k i] m IH]; intros it H; [discriminate|]. cbn in H. destruct (eqs k n) eqn:E; [left; apply eqs_eq in E; congruence|right; exact (IH it H)].
Qed.
Lemma is_switch : forall n m, switch m n = true -> exists it, In (n, it) m /\ ctype it = type_bool.
Proof. intros n m H. unfold switch in H. destruct (lookup n m) as [it|] eqn:E; [|discriminate]. exists it. split; [apply lookup_key; exact E|destruct (ctype it); congruence]. Qed.
Lemma declared_ones : forall n, (registered n mgcli_options <-> In n all_names) /\ (switch mgcli_options n = true <-> n = str "validate").
Proof.
  intros n. split; split.
  - unfold registered. intros H. destruct (lookup n mgcli_options) as [it|] eqn:E; [|congruence]. apply lookup_key in E.
    assert (G : forallb (fun p => existsb (eqs (fst p)) all_names) mgcli_options = true) by (vm_compute; reflexivity).
    pose proof (proj1 (forallb_forall _ _) G _ E) as X. cbn [fst] in X. apply existsb_exists in X as (y & I & Y). apply eqs_eq in Y. subst y. exact I.
  - intros I. assert (G : forallb (fun x => match lookup x mgcli_options with Some _ => true | None => false end) all_names = true) by (vm_compute; reflexivity).
    pose proof (proj1 (forallb_forall _ _) G _ I) as X. cbv beta in X. unfold registered. destruct (lookup n mgcli_options); [discriminate|discriminate X].
  - intros H. apply is_switch in H as (it & I & T).
    assert (G : forallb (fun p => match ctype (snd p) with type_bool => eqs (fst p) (str "validate") | _ => true end) mgcli_options = true) by (vm_compute; reflexivity).
    pose proof (proj1 (forallb_forall _ _) G _ I) as X. cbn [fst snd] in X. rewrite T in X. apply eqs_eq in X. exact X.
  - intros ->. vm_compute. reflexivity.
Qed.
Definition letter_options : list (list Z * list Z) :=
  [(str "i", str "input"); (str "k", str "kind"); (str "p", str "position"); (str "x", str "xml"); (str "h", str "handler"); (str "z", str "size"); (str "o", str "output"); (str "s", str "starttime"); (str "e", str "endtime"); (str "t", str "test"); (str "b", str "bitrate"); (str "j", str "path"); (str "v", str "validate")].
Lemma letters : forall v c n, nonul v -> In ([c], n) letter_options -> exists m, process [str "-" ++ [c] ++ str ":" ++ v] mgcli_options = Some (true, m) /\ vals n m = [v].
Proof.
  intros v c n V I. assert (P : c <> 0 /\ c <> 45 /\ c <> 58 -> parse_arg mgcli_options (str "-" ++ [c] ++ str ":" ++ v) = Option_ [c] v).
  { intros (A & B & C). change (str "-" ++ [c] ++ str ":" ++ v) with (dashes false ++ [c] ++ c_colon :: v). apply parse_colon; try assumption.
    - apply Forall_cons; [exact A|apply Forall_nil]. - intros _ r E. injection E as E _. apply B. exact E. - intros [E|[]]. apply C. exact E. }
  unfold process. cbn [process_args]. unfold letter_options in I. cbn [In] in I.
  repeat (destruct I as [I|I]; [injection I as <- <-; rewrite P by (split; [discriminate|split; discriminate]); eexists; split; vm_compute; reflexivity|]). destruct I.
Qed.
