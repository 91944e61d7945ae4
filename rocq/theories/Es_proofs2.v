(** Proofs for Es_model: sequences of access units, start codes of 3 bytes, what is refused *)
From Coq Require Import ZifyNat.
From Verif Require Import Util Bits_spec SampleTab_model SampleTab_proofs TsTime_model Ts_model Box_model Box_proofs Es_model Es_proofs.
Local Open Scope Z_scope.
Local Ltac Zify.zify_post_hook ::= Z.div_mod_to_equations.

Definition nal_ok (u : list Z) : Prop := u <> [] /\ no_code u.
Lemma is_nal_ok : forall us, Forall is_nal us -> Forall nal_ok us /\ Forall (fun u => zlen u < 2 ^ 32) us.
Proof. intros us F. split; (eapply Forall_impl; [|exact F]); unfold is_nal, nal_ok; intros; tauto. Qed.
Lemma delimiter_ok : nal_ok [9; 0xf0].
Proof. split; [discriminate|]. intros [|a [|b [|c x]]] y E; discriminate E. Qed.
Lemma with_delimiter_units : forall sps pps k us, nal_ok sps -> nal_ok pps -> Forall nal_ok us -> Forall nal_ok ([9; 0xf0] :: (if k : bool then [sps; pps] else []) ++ us).
Proof. intros. constructor; [exact delimiter_ok|]. apply Forall_app. split; [destruct k; auto|assumption]. Qed.
Definition opened (sps pps : list Z) : vstate := mkV sps pps true [].
Lemma read_ok : forall sps pps us, sps <> [] -> pps <> [] -> Forall nal_ok us -> read_access_unit (opened sps pps) (annex_b us) = Sample (opened sps pps) (avcc (picture_units us)).
Proof.
  intros sps pps us A B F. unfold read_access_unit. rewrite units_annex by exact F. cbv zeta. rewrite fold_step, step_open by (cbn; auto). reflexivity.
Qed.
Lemma read_first : forall sps pps us, sps <> [] -> pps <> [] -> nal_type sps = 7 -> nal_type pps = 8 -> nal_ok sps -> nal_ok pps -> Forall nal_ok us ->
  read_access_unit v0 (with_delimiter sps pps (us, true)) = Sample (opened sps pps) (avcc (picture_units us)).
Proof.
  intros sps pps us A B TA TB NA NB F. unfold read_access_unit, with_delimiter. cbn [fst snd]. rewrite units_annex by (apply (with_delimiter_units sps pps true); assumption). cbv zeta. rewrite fold_step.
  change ([9; 240] :: [sps; pps] ++ us) with ([[9; 240]; sps; pps] ++ us). rewrite step_app. 
  assert (E : step v0 [[9; 240]; sps; pps] = opened sps pps). { unfold step. cbn [map fold_left]. change (nal_type [9; 240]) with 9. rewrite TA, TB. unfold nal_payload, v0. cbn [v_sps v_pps v_open v_sample Z.eqb]. reflexivity. }
  rewrite E, step_open by (cbn; auto). reflexivity.
Qed.
Lemma read_rest : forall sps pps ss, sps <> [] -> pps <> [] -> nal_type sps = 7 -> nal_type pps = 8 -> nal_ok sps -> nal_ok pps -> Forall (fun s => Forall nal_ok (fst s)) ss ->
  read_access_units (opened sps pps) (map (with_delimiter sps pps) ss) = Some (opened sps pps, map (fun s => avcc (picture_units (fst s))) ss).
Proof.
  intros sps pps ss A B TA TB NA NB F. induction F as [|[us k] ss F1 F2 IH]; [reflexivity|]. cbn [map read_access_units fst] in *. unfold with_delimiter at 1. cbn [fst snd].
  rewrite read_ok by (try assumption; apply with_delimiter_units; assumption). rewrite IH. do 3 f_equal. f_equal. rewrite picture_cons. change (nal_type [9; 240]) with 9. cbn [Z.eqb negb orb].
  destruct k; [|reflexivity]. cbn [app]. rewrite !picture_cons, TA, TB. reflexivity.
Qed.
Lemma read_all : forall sps pps us ss, is_nal sps -> is_nal pps -> nal_type sps = 7 -> nal_type pps = 8 -> Forall (fun s => Forall is_nal (fst s)) ((us, true) :: ss) ->
  read_access_units v0 (map (with_delimiter sps pps) ((us, true) :: ss)) = Some (opened sps pps, map (fun s => avcc (picture_units (fst s))) ((us, true) :: ss)).
Proof.
  intros sps pps us ss A B TA TB F. assert (G : Forall (fun s : list (list Z) * bool => Forall nal_ok (fst s)) ((us, true) :: ss)) by (eapply Forall_impl; [|exact F]; intros s H; apply is_nal_ok; exact H).
  inversion G as [|? ? G1 G2]. subst. cbn [fst] in G1. cbn [map read_access_units]. destruct A as (A1 & A2 & A3 & A4), B as (B1 & B2 & B3 & B4).
  rewrite read_first by (try assumption; split; assumption). rewrite read_rest by (try assumption; split; assumption). reflexivity.
Qed.
Lemma write_ok : forall sps pps s, Forall is_nal (fst s) -> access_unit sps pps (snd s) (avcc (fst s)) = Some (with_delimiter sps pps s).
Proof. intros sps pps [us k] F. cbn [fst snd] in *. rewrite access_unit_ok by (apply is_nal_ok; exact F). reflexivity. Qed.
(** ** start codes of 3 or 4 bytes *)
Definition starts (rest : list Z) : Prop := rest = [] \/ exists c r, rest = 0 :: 0 :: 1 :: c :: r \/ rest = 0 :: 0 :: 0 :: 1 :: r.
Lemma nal_bytes_3 : forall c r, nal_bytes (0 :: 0 :: 1 :: c :: r) = ([], 0 :: 0 :: 1 :: c :: r). Proof. reflexivity. Qed.
Lemma last_tl : forall (a b : Z) u, last (a :: b :: u) 0 = last (b :: u) 0. Proof. reflexivity. Qed.
Lemma nal_bytes_starts : forall u rest, no_code u -> (u <> [] -> last u 0 <> 0) -> starts rest -> nal_bytes (u ++ rest) = (u, rest).
Proof.
  induction u as [|a u IH]; intros rest N LA CE.
  - destruct CE as [-> | (c & r & [-> | ->])]; reflexivity.
  - assert (LA' : u <> [] -> last u 0 <> 0) by (destruct u as [|b u]; [congruence|intros _; rewrite <- (last_tl a); apply LA; discriminate]).
    specialize (IH rest (no_code_tl _ _ N) LA' CE). cbn [app].
    assert (STEP : forall b c d r, u ++ rest = b :: c :: d :: r -> ~ (a = 0 /\ b = 0 /\ c = 1) -> ~ (a = 0 /\ b = 0 /\ c = 0 /\ d = 1) -> nal_bytes (a :: u ++ rest) = (a :: u, rest)).
    { intros b c d r E X Y. rewrite E, nal_bytes_cons4, <- E, IH. destruct (_ || _) eqn:Q; [|reflexivity]. apply orb_true_iff in Q as [Q|Q]; [apply code_here in Q|apply code_here4 in Q]; tauto. }
    specialize (LA ltac:(discriminate)).
    destruct u as [|b [|c [|d u]]]; cbn [app last] in *.
    + destruct CE as [-> | (x & r & [-> | ->])]; [reflexivity| |]; (eapply STEP; [reflexivity|lia|lia]).
    + destruct CE as [-> | (x & r & [-> | ->])]; [reflexivity| |]; (eapply STEP; [reflexivity|lia|lia]).
    + assert (~ (a = 0 /\ b = 0 /\ c = 1)) by (intros (-> & -> & ->); exact (N [] [] eq_refl)).
      destruct CE as [-> | (x & r & [-> | ->])]; [reflexivity| |]; (eapply STEP; [reflexivity|lia|lia]).
    + eapply STEP; [reflexivity| |]; [intros (-> & -> & ->); exact (N [] (d :: u) eq_refl)|intros (-> & -> & -> & ->); exact (N [0] u eq_refl)].
Qed.
Definition clean (u : list Z) : Prop := u <> [] /\ no_code u /\ last u 0 <> 0.
Lemma start_coded_cons : forall b u us, start_coded ((b, u) :: us) = (if b then [0; 0; 0; 1] else [0; 0; 1]) ++ u ++ start_coded us.
Proof. intros. unfold start_coded. cbn [map concat fst snd]. rewrite <- app_assoc. reflexivity. Qed.
Lemma start_starts : forall us, Forall (fun x => clean (snd x)) us -> starts (start_coded us).
Proof.
  intros [|[b u] us] F; [left; reflexivity|right]. inversion F as [|? ? [NE _] _]. subst. cbn [snd] in *. destruct u as [|c u]; [congruence|]. exists c. rewrite start_coded_cons. destruct b; eexists; cbn [app]; [right|left]; reflexivity.
Qed.
Lemma split_start : forall us n, Forall (fun x => clean (snd x)) us -> (length us <= n)%nat -> split_nals n (start_coded us) = Some (map (fun x => (nal_type (snd x), snd x)) us).
Proof.
  induction us as [|[b u] us IH]; intros n F L; [destruct n; reflexivity|]. destruct n as [|n]; [cbn in L; lia|]. inversion F as [|? ? (NE & NC & LA) F']. subst. cbn [snd] in *.
  rewrite start_coded_cons. rewrite split_nals_S by (destruct b; discriminate).
  assert (SK : skipn 3 (find_code ((if b then [0; 0; 0; 1] else [0; 0; 1]) ++ u ++ start_coded us)) = u ++ start_coded us) by (destruct b; reflexivity). rewrite SK.
  pose proof (nal_bytes_starts u (start_coded us) NC (fun _ => LA) (start_starts us F')) as NB. destruct u as [|h u]; [congruence|]. cbn [app] in *. rewrite NB. cbv beta iota. rewrite (IH n F') by (cbn in L; lia). cbn [map snd]. unfold nal_type at 2. cbn [hd]. rewrite low5. reflexivity.
Qed.
Lemma start_length : forall us, (length us <= length (start_coded us))%nat.
Proof. induction us as [|[b u] us IH]; [cbn; lia|]. rewrite start_coded_cons, !app_length. destruct b; cbn [length]; lia. Qed.
(** ** refusals *)
Lemma find_code_none : forall l, no_code l -> length (skipn 3 (find_code l)) = 0%nat.
Proof.
  induction l as [|a l IH]; intros N; [reflexivity|]. specialize (IH (no_code_tl _ _ N)). destruct l as [|b [|c l]]; [reflexivity|reflexivity|].
  change (find_code (a :: b :: c :: l)) with (if (a =? 0) && (b =? 0) && (c =? 1) then a :: b :: c :: l else find_code (b :: c :: l)).
  destruct (_ && _) eqn:Q; [|exact IH]. apply code_here in Q as (-> & -> & ->). destruct (N [] l eq_refl).
Qed.
Lemma units_no_code : forall l, l <> [] -> no_code l -> units_of l = None.
Proof.
  intros l NE N. unfold units_of. destruct l as [|a l]; [congruence|]. cbn [length]. rewrite split_nals_S by discriminate. pose proof (find_code_none (a :: l) N) as F. destruct (skipn 3 (find_code (a :: l))); [reflexivity|discriminate F].
Qed.
Lemma split_annex_end : forall us n, Forall nal_ok us -> split_nals n (annex_b us ++ [0; 0; 0; 1]) = None.
Proof.
  induction us as [|u us IH]; intros n F; [destruct n; [reflexivity|]; cbn [annex_b map concat app]; rewrite split_nals_S by discriminate; reflexivity|].
  inversion F as [|? ? [NE NC] F']. subst. replace (annex_b (u :: us) ++ [0; 0; 0; 1]) with ([0; 0; 0; 1] ++ u ++ (annex_b us ++ [0; 0; 0; 1])) by (unfold annex_b; cbn [map concat]; rewrite <- !app_assoc; reflexivity).
  destruct n as [|n]; [reflexivity|]. rewrite split_nals_S by discriminate.
  set (rest := annex_b us ++ [0; 0; 0; 1]) in *. change (skipn 3 (find_code ([0; 0; 0; 1] ++ u ++ rest))) with (u ++ rest).
  assert (CE : code_or_end rest) by (right; unfold rest; destruct us as [|v us]; [exists []; reflexivity|]; eexists; unfold annex_b; cbn [map concat app]; reflexivity).
  pose proof (nal_bytes_app u rest NC CE) as NB. destruct u as [|h u]; [congruence|]. cbn [app] in *. rewrite NB. cbv beta iota. rewrite IH by exact F'. reflexivity.
Qed.
Lemma step_no_pps : forall us s, v_open s = false -> Forall (fun u => nal_type u <> 8) us -> v_open (step s us) = false.
Proof.
  intros us s O F. revert s O. induction F as [|u us N F IH]; intros s O; [exact O|]. rewrite step_cons. apply IH. unfold nal_payload.
  destruct (Z.eqb_spec (nal_type u) 9); [exact O|]. destruct (Z.eqb_spec (nal_type u) 7); [exact O|]. destruct (Z.eqb_spec (nal_type u) 8); [congruence|exact O].
Qed.
Lemma put_short : forall us n u k, Forall (fun u => zlen u < 2 ^ 32) us -> zlen u < k < 2 ^ 32 -> put_nals n (avcc us ++ be 4 k ++ u) = None.
Proof.
  induction us as [|v us IH]; intros n u k F K.
  - cbn [avcc map concat app]. destruct (be_4 k) as (a & b & c & d & E). assert (V : be_val 0 (be 4 k) = k) by (rewrite be_val_be; [lia|unfold zlen in *; lia]). rewrite E in *. destruct n as [|n]; [reflexivity|]. rewrite put_nals_S by discriminate. cbv zeta. cbn [app].
    change (firstn 4 (a :: b :: c :: d :: u)) with [a; b; c; d]. rewrite V. destruct (Z.ltb_spec (zlen (a :: b :: c :: d :: u) - 4) k) as [_|Q]; [rewrite orb_true_r; reflexivity|]. unfold zlen in *. cbn [length] in Q. lia.
  - inversion F as [|? ? B F']. subst. rewrite avcc_cons, <- !app_assoc. set (rest := avcc us ++ be 4 k ++ u) in *.
    assert (V : be_val 0 (be 4 (zlen v)) = zlen v) by (rewrite be_val_be; [lia|unfold zlen in *; lia]).
    destruct (be_4 (zlen v)) as (a & b & c & d & E). rewrite E in *. cbn [app]. destruct n as [|n]; [reflexivity|]. rewrite put_nals_S by discriminate.
    cbv zeta. change (firstn 4 (a :: b :: c :: d :: v ++ rest)) with [a; b; c; d]. rewrite V. destruct (_ || _); [reflexivity|].
    unfold zlen. rewrite Nat2Z.id. change (skipn (4 + length v) (a :: b :: c :: d :: v ++ rest)) with (skipn (length v) (v ++ rest)). rewrite skipn_app, skipn_all, Nat.sub_diag. cbn [skipn app]. unfold rest. rewrite IH by assumption. reflexivity.
Qed.
