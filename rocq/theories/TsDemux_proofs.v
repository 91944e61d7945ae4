(** Proofs for TsDemux_model: one stream *)
From Coq Require Import ZifyNat.
From Verif Require Import Util Bits_spec TsTime_model Ts_model Ts_proofs Ts_proofs2 Ts_proofs3 Ts_proofs4 Ts_proofs5 TsSect_model TsDemux_model.
Local Open Scope Z_scope.

Notation gate_t := (option (Z * (list Z -> bool))).
(** enough of the first unit to know the stream *)
Definition shown (gate : option (Z * (list Z -> bool))) (l : list tp) : Prop :=
  match gate with
  | None => True
  | Some (min, look) => exists a b, l = a ++ b /\ min <= zlen (concat (map t_payload a)) /\ look (concat (map t_payload a)) = true
  end.
Definition merge (f g : option Z) : option Z := match f with Some r => Some r | None => g end.
Definition ind (t : tp) : option Z := if (t_pay t =? 1) && (t_af t =? 1) && negb (t_aflen t =? 183) then Some (t_rai t) else None.
Definition check (gate : gate_t) (x : list Z) : bool := match gate with None => false | Some (min, look) => (min <=? zlen x) && look x end.
Definition opened (gate : gate_t) (st : bool) : bool := match gate with None => true | Some _ => st end.
Definition hand (gate : gate_t) (st : bool) (f : option Z) (u : unit_t) : list devent := if opened gate st then [DUnit (u_body u) f (Some (u_rb u))] else [].
(** the packet after what a unit start does *)
Definition dcont (gate : gate_t) (s : dstate) (t : tp) : dstate * list devent :=
  let p1 := d_ps s in
  let p2 := mkps (s_payload p1 ++ t_payload t) true (s_has p1) (s_data p1) (s_sid p1) in
  let s2 := mkD p2 (merge (d_first s) (ind t)) (d_struct s || check gate (s_payload p2)) in
  let '(p3, e3) := process p2 in (mkD p3 (d_first s2) (d_struct s2), flat_map (hand_on gate (d_struct s2) (d_first s2) (s_data p3)) e3).
Lemma ok_no_oob : forall t, ok_tp t -> (t_pay t =? 1) && (t_af t =? 1) && (183 <? t_aflen t) = false.
Proof. intros t (_ & P & A & _). rewrite P. cbn [Z.eqb Pos.eqb andb]. destruct (Z.eqb_spec (t_af t) 1) as [Q|]; [|reflexivity]. specialize (A Q). cbn [andb]. apply Z.ltb_ge. exact A. Qed.
Lemma dadd_cont : forall gate s t, ok_tp t -> t_pusi t = 0 -> dadd gate s t = dcont gate s t.
Proof.
  intros gate s t O U. unfold dadd, dcont. pose proof (ok_no_oob t O) as NO. destruct O as (T & P & A & N). rewrite T, U. cbn [Z.eqb Pos.eqb]. rewrite NO. rewrite P. cbn [Z.eqb Pos.eqb].
  destruct (t_payload t) as [|b r] eqn:Et; [congruence|]. cbn [negb]. rewrite orb_true_r. unfold merge, ind, check. rewrite P. cbn [Z.eqb Pos.eqb d_first d_struct s_payload].
  destruct (process _) as [p3 e3]. reflexivity.
Qed.
Lemma dadd_start : forall gate s t, ok_tp t -> t_pusi t = 1 -> dadd gate s t =
  let '(p, e) := flush (d_ps s) in
  let '(s3, e3) := dcont gate (mkD (mkps [] true (s_has p) (s_data p) (s_sid p)) (d_first s) (d_struct s)) t in (s3, flat_map (hand_on gate (d_struct s) (d_first s) (s_data p)) e ++ e3).
Proof.
  intros gate s t O U. unfold dadd, dcont, flush. pose proof (ok_no_oob t O) as NO. destruct O as (T & P & A & N). rewrite T, U. cbn [Z.eqb Pos.eqb].
  destruct (if s_gotfirst (d_ps s) then before_unit_start (d_ps s) else (d_ps s, [])) as [p e]. rewrite NO. rewrite P. cbn [Z.eqb Pos.eqb d_ps s_payload s_gotfirst s_has s_data s_sid app].
  destruct (t_payload t) as [|b r] eqn:Et; [congruence|]. cbn [negb]. rewrite orb_true_r. unfold merge, ind, check. rewrite P. cbn [Z.eqb Pos.eqb d_first d_struct s_payload].
  destruct (process _) as [p3 e3]. reflexivity.
Qed.
Lemma dcont_prefix : forall gate u t y x g d sid f st, u_ok u -> u_bytes u = (x ++ t_payload t) ++ y -> unbounded u \/ (bounded u /\ y <> []) ->
  dcont gate (mkD (mkps x g false d sid) f st) t = (mkD (mkps (x ++ t_payload t) true false d sid) (merge f (ind t)) (st || check gate (x ++ t_payload t)), []).
Proof. intros gate u t y x g d sid f st U E B. unfold dcont. cbn [d_ps s_payload s_has s_data s_sid d_first d_struct]. rewrite (process_prefix u _ y) by assumption. reflexivity. Qed.
Lemma dcont_full : forall gate u t x g d sid f st, u_ok u -> bounded u -> u_bytes u = x ++ t_payload t -> (sid = 0 \/ sid = u_sid u) ->
  dcont gate (mkD (mkps x g false d sid) f st) t = (mkD (mkps (u_bytes u) true true (Some (u_rb u)) (u_sid u)) (merge f (ind t)) (st || check gate (u_bytes u)), hand gate (st || check gate (u_bytes u)) (merge f (ind t)) u).
Proof.
  intros gate u t x g d sid f st U B E HS. unfold dcont. cbn [d_ps s_payload s_has s_data s_sid d_first d_struct]. rewrite <- E. rewrite (process_full u) by (try assumption; reflexivity). cbn [s_payload s_gotfirst].
  cbn [flat_map hand_on d_struct d_first]. rewrite app_nil_r. reflexivity.
Qed.
Definition settle (r : dstate * list devent) : dstate * list devent := let '(s, e) := r in if s_has (d_ps s) then (mkD (mkps [] false false (s_data (d_ps s)) (s_sid (d_ps s))) None (d_struct s), e) else (s, e).
Lemma dstep_settle : forall gate s t, dstep gate s t = settle (dadd gate s t). Proof. reflexivity. Qed.
Lemma hand_not_fatal : forall gate st f u, existsb fatal (hand gate st f u) = false. Proof. intros. unfold hand. destruct (opened gate st); reflexivity. Qed.
Fixpoint sfold (gate : gate_t) (st : bool) (x : list Z) (l : list tp) : bool :=
  match l with [] => st | t :: l => sfold gate (st || check gate (x ++ t_payload t)) (x ++ t_payload t) l end.
Fixpoint firsts (f : option Z) (l : list tp) : option Z := match l with [] => f | t :: l => firsts (merge f (ind t)) l end.
Lemma firsts_some : forall l r, firsts (Some r) l = Some r. Proof. induction l; intros r; [reflexivity|apply IHl]. Qed.
Lemma firsts_spec : forall l f, firsts f l = merge f (first_indicator l).
Proof.
  induction l as [|t l IH]; intros [r|]; cbn [firsts]; try reflexivity; [apply firsts_some|]. cbn [merge first_indicator]. unfold ind. destruct (_ && _); [apply firsts_some|apply IH].
Qed.
Lemma tail_open : forall gate u, u_ok u -> unbounded u -> forall l r x d sid f st, Forall ok_tp l -> Forall (fun t => t_pusi t = 0) l -> u_bytes u = x ++ concat (map t_payload l) ->
  dfeed gate (mkD (mkps x true false d sid) f st) (l ++ r) = dfeed gate (mkD (mkps (u_bytes u) true false d sid) (firsts f l) (sfold gate st x l)) r.
Proof.
  intros gate u U B. induction l as [|t l IH]; intros r x d sid f st O P E; cbn [app map concat firsts sfold] in *.
  - rewrite app_nil_r in E. rewrite E. reflexivity.
  - inversion O as [|? ? O1 O2]. inversion P as [|? ? P1 P2]. subst. cbn [dfeed]. rewrite dstep_settle, dadd_cont by assumption. rewrite app_assoc in E.
    rewrite (dcont_prefix gate u t (concat (map t_payload l))) by (try assumption; left; exact B). cbn [settle d_ps s_has existsb app]. apply IH; assumption.
Qed.
Lemma tail_decl : forall gate u, u_ok u -> bounded u -> forall l r x d sid f st, l <> [] -> Forall ok_tp l -> Forall (fun t => t_pusi t = 0) l -> u_bytes u = x ++ concat (map t_payload l) -> (sid = 0 \/ sid = u_sid u) ->
  dfeed gate (mkD (mkps x true false d sid) f st) (l ++ r) = hand gate (sfold gate st x l) (firsts f l) u ++ dfeed gate (mkD (mkps [] false false (Some (u_rb u)) (u_sid u)) None (sfold gate st x l)) r.
Proof.
  intros gate u U B. induction l as [|t l IH]; intros r x d sid f st NE O P E HS; [congruence|]. cbn [app map concat firsts sfold] in *.
  inversion O as [|? ? O1 O2]. inversion P as [|? ? P1 P2]. subst. cbn [dfeed]. rewrite dstep_settle, dadd_cont by assumption. rewrite app_assoc in E. destruct l as [|t' l].
  - cbn [map concat] in E. rewrite app_nil_r in E. rewrite (dcont_full gate u) by assumption. cbn [settle d_ps s_has s_data s_sid d_struct]. rewrite hand_not_fatal, E. reflexivity.
  - rewrite (dcont_prefix gate u t (concat (map t_payload (t' :: l)))) by first [assumption | right; split; [exact B|]; cbn [map concat]; inversion O2 as [|? ? (_ & _ & _ & N) _]; destruct (t_payload t'); [congruence|discriminate]].
    cbn [settle d_ps s_has existsb app]. apply IH; try assumption. discriminate.
Qed.
(** one unit *)
Lemma not_fatal_flush : forall gate st f d p e, flush p = (fst (flush p), e) -> Forall (fun v => match v with Received _ => True | _ => False end) e -> existsb fatal (flat_map (hand_on gate st f d) e) = false.
Proof. intros gate st f d p e _ F. induction F as [|v e H F IH]; [reflexivity|]. destruct v; try contradiction. cbn [flat_map hand_on]. rewrite existsb_app, IH. destruct (match gate with None => _ | Some _ => _ end); reflexivity. Qed.
Lemma unit_open : forall gate u l r p d sid f st x g e, u_ok u -> unbounded u -> carries l (u_bytes u) -> flush p = (mkps x g false d sid, e) -> Forall (fun v => match v with Received _ => True | _ => False end) e ->
  dfeed gate (mkD p f st) (l ++ r) = flat_map (hand_on gate st f d) e ++ dfeed gate (mkD (mkps (u_bytes u) true false d sid) (firsts f l) (sfold gate st [] l)) r.
Proof.
  intros gate u l r p d sid f st x g e U B C F FE. destruct (carries_split _ _ C) as (t & l' & -> & E & P & P' & O & O'). cbn [app dfeed]. rewrite dstep_settle, dadd_start by assumption. cbn [d_ps]. rewrite F. cbn [s_has s_data s_sid d_first d_struct].
  rewrite (dcont_prefix gate u t (concat (map t_payload l'))) by (try assumption; left; exact B). cbn [settle d_ps s_has]. rewrite app_nil_r.
  rewrite (not_fatal_flush gate _ _ _ p e) by (try assumption; rewrite F; reflexivity). f_equal. cbn [firsts sfold]. cbn [app]. apply (tail_open gate u U B); assumption.
Qed.
Lemma unit_decl : forall gate u l r p d sid f st x g e, u_ok u -> bounded u -> carries l (u_bytes u) -> flush p = (mkps x g false d sid, e) -> Forall (fun v => match v with Received _ => True | _ => False end) e -> (sid = 0 \/ sid = u_sid u) ->
  dfeed gate (mkD p f st) (l ++ r) = flat_map (hand_on gate st f d) e ++ hand gate (sfold gate st [] l) (firsts f l) u ++ dfeed gate (mkD (mkps [] false false (Some (u_rb u)) (u_sid u)) None (sfold gate st [] l)) r.
Proof.
  intros gate u l r p d sid f st x g e U B C F FE HS. destruct (carries_split _ _ C) as (t & l' & -> & E & P & P' & O & O'). cbn [app dfeed]. rewrite dstep_settle, dadd_start by assumption. cbn [d_ps]. rewrite F. cbn [s_has s_data s_sid d_first d_struct].
  destruct l' as [|t' l'].
  - cbn [map concat] in E. rewrite app_nil_r in E. rewrite (dcont_full gate u) by assumption. cbn [settle d_ps s_has s_data s_sid d_struct]. rewrite existsb_app, hand_not_fatal, orb_false_r.
    rewrite (not_fatal_flush gate _ _ _ p e) by (try assumption; rewrite F; reflexivity). rewrite <- app_assoc. cbn [firsts sfold app]. rewrite <- E. reflexivity.
  - rewrite (dcont_prefix gate u t (concat (map t_payload (t' :: l')))) by first [assumption | right; split; [exact B|]; cbn [map concat]; inversion O' as [|? ? (_ & _ & _ & N) _]; destruct (t_payload t'); [congruence|discriminate]].
    cbn [settle d_ps s_has]. rewrite app_nil_r. rewrite (not_fatal_flush gate _ _ _ p e) by (try assumption; rewrite F; reflexivity). f_equal. exact (tail_decl gate u U B (t' :: l') r (t_payload t) d sid (merge f (ind t)) (st || check gate (t_payload t)) ltac:(discriminate) O' P' E HS).
Qed.
Lemma sfold_true : forall gate l x, sfold gate true x l = true. Proof. induction l; intros x; [reflexivity|]. cbn [sfold orb]. apply IHl. Qed.
Lemma sfold_shown : forall gate l x, (match gate with None => True | Some (min, look) => exists a b, l = a ++ b /\ a <> [] /\ min <= zlen (x ++ concat (map t_payload a)) /\ look (x ++ concat (map t_payload a)) = true end) -> opened gate (sfold gate false x l) = true.
Proof.
  intros [[min look]|] l x H; [|reflexivity]. cbn [opened]. destruct H as (a & b & -> & NE & M & L). revert x M L. induction a as [|t a IH]; intros x M L; [congruence|]. cbn [app sfold map concat] in *.
  destruct a as [|t' a].
  - cbn [map concat] in *. rewrite app_nil_r in *. cbn [check]. destruct (Z.leb_spec min (zlen (x ++ t_payload t))); [|lia]. rewrite L. cbn [andb orb]. apply sfold_true.
  - rewrite app_assoc in M, L. destruct (check _ _); [cbn [orb]; apply sfold_true|]. cbn [orb]. apply IH; try assumption. discriminate.
Qed.
Lemma sfold_mono : forall gate st x l, opened gate st = true -> opened gate (sfold gate st x l) = true.
Proof. intros [[min look]|] st x l H; [|reflexivity]. cbn [opened] in *. subst. apply sfold_true. Qed.
(** sequences *)
Definition is_decl (u : unit_t) : bool := negb (u_len u =? 0).
Lemma bounded_decl : forall u, bounded u -> is_decl u = true. Proof. unfold bounded, is_decl. intros. lia. Qed.
Lemma unbounded_decl : forall u, unbounded u -> is_decl u = false. Proof. unfold unbounded, is_decl. intros. lia. Qed.
Fixpoint expect (f : option Z) (us : list (unit_t * list tp)) : list devent :=
  match us with
  | [] => []
  | (u, l) :: r => let f' := merge f (first_indicator l) in
    if is_decl u then DUnit (u_body u) f' (Some (u_rb u)) :: expect None r
    else match r with [] => [] | _ => DUnit (u_body u) f' (Some (u_rb u)) :: expect f' r end
  end.
Definition kinds (sid : Z) (us : list (unit_t * list tp)) : Prop := Forall (fun x => u_ok (fst x) /\ carries (snd x) (u_bytes (fst x)) /\ ((bounded (fst x) /\ u_sid (fst x) = sid) \/ unbounded (fst x))) us.
Lemma stream_kinds : forall sid us, stream_units sid us -> kinds sid us.
Proof. intros sid us F. eapply Forall_impl; [|exact F]. intros x (A & B & [[D E]|D]); (split; [exact A|]; split; [exact B|]); [left; split; [apply declares_bounded; exact D|exact E]|right; apply open_unbounded; exact D]. Qed.
Lemma feed_units : forall gate sid us, kinds sid us ->
  (forall d s0 st, (s0 = 0 \/ s0 = sid) -> opened gate st = true -> dfeed gate (mkD (mkps [] false false d s0) None st) (concat (map snd us)) = expect None us) /\
  (forall u0 d s0 f st, u_ok u0 -> unbounded u0 -> (s0 = 0 \/ s0 = sid) -> opened gate st = true ->
     dfeed gate (mkD (mkps (u_bytes u0) true false d s0) f st) (concat (map snd us)) = match us with [] => [] | _ => DUnit (u_body u0) f (Some (u_rb u0)) :: expect f us end).
Proof.
  intros gate sid us K. induction K as [|[u l] us (U & C & D) K [IH1 IH2]]; [split; reflexivity|]. cbn [fst snd] in *. split.
  - intros d s0 st HS OP. cbn [map concat expect snd]. destruct D as [[B SI]|B].
    + rewrite bounded_decl by exact B. rewrite (unit_decl gate u l _ _ d s0 None st [] false []) by first [assumption | reflexivity | apply Forall_nil | (left; reflexivity) | (subst; assumption)]. cbn [flat_map app].
      unfold hand. rewrite sfold_mono by exact OP. rewrite firsts_spec. cbn [merge app]. f_equal. apply IH1; [right; exact SI|apply sfold_mono; exact OP].
    + rewrite unbounded_decl by exact B. rewrite (unit_open gate u l _ _ d s0 None st [] false []) by first [assumption | reflexivity | apply Forall_nil | (left; reflexivity) | (subst; assumption)]. cbn [flat_map app]. rewrite firsts_spec. cbn [merge].
      rewrite IH2 by (try assumption; apply sfold_mono; exact OP). reflexivity.
  - intros u0 d s0 f st U0 B0 HS OP. cbn [map concat expect snd]. pose proof (flush_unb u0 d s0 U0 B0) as FL.
    assert (HO : flat_map (hand_on gate st f (Some (u_rb u0))) [Received (u_body u0)] = [DUnit (u_body u0) f (Some (u_rb u0))]).
    { cbn [flat_map hand_on d_struct d_first]. fold (opened gate st). rewrite OP. reflexivity. }
    assert (FR : Forall (fun v => match v with Received _ => True | _ => False end) [Received (u_body u0)]) by (constructor; [exact I|constructor]).
    destruct D as [[B SI]|B].
    + rewrite bounded_decl by exact B. rewrite (unit_decl gate u l _ _ (Some (u_rb u0)) s0 f st (u_bytes u0) true [Received (u_body u0)]) by (try assumption; subst; assumption). rewrite HO. cbn [app]. f_equal.
      unfold hand. rewrite sfold_mono by exact OP. rewrite firsts_spec. cbn [app]. f_equal. apply IH1; [right; exact SI|apply sfold_mono; exact OP].
    + rewrite unbounded_decl by exact B. rewrite (unit_open gate u l _ _ (Some (u_rb u0)) s0 f st (u_bytes u0) true [Received (u_body u0)]) by assumption. rewrite HO. cbn [app]. f_equal. rewrite firsts_spec.
      apply IH2; try assumption. apply sfold_mono. exact OP.
Qed.
Lemma shown_fold : forall gate l, l <> [] -> shown gate l -> (match gate with Some (min, _) => 0 < min | None => True end) -> opened gate (sfold gate false [] l) = true.
Proof.
  intros gate l NE H M. apply sfold_shown. destruct gate as [[min look]|]; [|exact I]. destruct H as (a & b & E & Q & L). exists a, b. split; [exact E|]. split; [|split; assumption]. intros ->. change (zlen (concat (map t_payload []))) with 0 in Q. lia.
Qed.
Lemma feed_shown : forall gate sid u l us, kinds sid ((u, l) :: us) -> shown gate l -> (match gate with Some (min, _) => 0 < min | None => True end) ->
  dfeed gate d0 (concat (map snd ((u, l) :: us))) = expect None ((u, l) :: us).
Proof.
  intros gate sid u l us K SH M. inversion K as [|? ? (U & C & D) K']. subst. cbn [fst snd] in *. assert (NE : l <> []) by (destruct l; [destruct C as (_ & [] & _)|discriminate]).
  pose proof (shown_fold gate l NE SH M) as OP. destruct (feed_units gate sid us K') as [F1 F2]. cbn [map concat expect snd]. unfold d0. destruct D as [[B SI]|B].
  - rewrite bounded_decl by exact B. rewrite (unit_decl gate u l _ ps0 None 0 None false [] false []) by first [assumption | reflexivity | apply Forall_nil | (left; reflexivity) | (subst; assumption)]. cbn [flat_map app]. unfold hand. rewrite OP, firsts_spec. cbn [merge app]. f_equal. apply F1; [right; exact SI|exact OP].
  - rewrite unbounded_decl by exact B. rewrite (unit_open gate u l _ ps0 None 0 None false [] false []) by first [assumption | reflexivity | apply Forall_nil | (left; reflexivity) | (subst; assumption)]. cbn [flat_map app]. rewrite firsts_spec. cbn [merge]. rewrite F2 by (try assumption; auto). reflexivity.
Qed.
(** a stream never shown *)
Lemma sfold_never : forall min look l x, zlen (x ++ concat (map t_payload l)) < min -> sfold (Some (min, look)) false x l = false.
Proof.
  induction l as [|t l IH]; intros x H; [reflexivity|]. cbn [sfold map concat] in *. rewrite app_assoc in H. cbn [check]. destruct (Z.leb_spec min (zlen (x ++ t_payload t))) as [Q|_].
  - unfold zlen in *. rewrite app_length in H. lia.
  - cbn [andb orb]. apply IH. exact H.
Qed.
Lemma feed_never : forall min look sid us, kinds sid us -> Forall (fun x => zlen (u_bytes (fst x)) < min) us ->
  (forall d s0 f, (s0 = 0 \/ s0 = sid) -> dfeed (Some (min, look)) (mkD (mkps [] false false d s0) f false) (concat (map snd us)) = []) /\
  (forall u0 d s0 f, u_ok u0 -> unbounded u0 -> (s0 = 0 \/ s0 = sid) -> dfeed (Some (min, look)) (mkD (mkps (u_bytes u0) true false d s0) f false) (concat (map snd us)) = []).
Proof.
  intros min look sid us K. set (gate := Some (min, look)). induction K as [|[u l] us (U & C & D) K IH]; intros Z0; [split; reflexivity|]. inversion Z0 as [|? ? Z1 Z2]. subst. cbn [fst snd] in *. destruct (IH Z2) as [IH1 IH2].
  assert (SF : sfold gate false [] l = false) by (apply sfold_never; cbn [app]; destruct C as (E & _); rewrite E; exact Z1). split.
  - intros d s0 f HS. cbn [map concat snd]. destruct D as [[B SI]|B].
    + rewrite (unit_decl gate u l _ _ d s0 f false [] false []) by first [assumption | reflexivity | apply Forall_nil | (left; reflexivity) | (subst; assumption)]. rewrite SF. cbn [flat_map app hand opened]. unfold hand. cbn [opened app gate]. apply IH1. right. exact SI.
    + rewrite (unit_open gate u l _ _ d s0 f false [] false []) by first [assumption | reflexivity | apply Forall_nil | (left; reflexivity) | (subst; assumption)]. rewrite SF. cbn [flat_map app]. apply IH2; assumption.
  - intros u0 d s0 f U0 B0 HS. cbn [map concat snd]. pose proof (flush_unb u0 d s0 U0 B0) as FL. assert (FR : Forall (fun v => match v with Received _ => True | _ => False end) [Received (u_body u0)]) by (constructor; [exact I|constructor]).
    destruct D as [[B SI]|B].
    + rewrite (unit_decl gate u l _ _ (Some (u_rb u0)) s0 f false (u_bytes u0) true [Received (u_body u0)]) by (try assumption; subst; assumption). rewrite SF. unfold hand. cbn [flat_map hand_on d_struct app opened gate]. apply IH1. right. exact SI.
    + rewrite (unit_open gate u l _ _ (Some (u_rb u0)) s0 f false (u_bytes u0) true [Received (u_body u0)]) by assumption. rewrite SF. cbn [flat_map hand_on d_struct app gate]. apply IH2; assumption.
Qed.
