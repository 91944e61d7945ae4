(** Opening a file ends: every step moves on, to a later box or, at the same box, to a function from
    which the box cannot come back. *)
From Coq Require Import ZifyNat.
From Verif Require Import Util RangeMap_model SampleTab_model TimeTab_model Box_model Frag_model Level_model Movie_model Open_model.
Local Open Scope Z_scope.

(** * Readers read forward *)
Definition fwd {A} (r : rdr A) : Prop := forall f p x q, 0 <= p <= zlen f -> r f p = Some (x, q) -> p <= q <= zlen f.
Lemma fwd_ret {A} (x : A) : fwd (rret x).
Proof. intros f p y q P H. unfold rret in H. injection H as _ <-. lia. Qed.
Lemma fwd_none {A} : fwd (fun _ _ => None : option (A * Z)).
Proof. intros f p y q P H. discriminate H. Qed.
Lemma fwd_bind {A B} (m : rdr A) (k : A -> rdr B) : fwd m -> (forall x, fwd (k x)) -> fwd (rbind m k).
Proof.
  intros M K f p y q P H. unfold rbind in H. destruct (m f p) as [[x p']|] eqn:E; [|discriminate].
  pose proof (M f p x p' P E). pose proof (K x f p' y q ltac:(lia) H). lia.
Qed.
Lemma bytes_at_len f p n l : bytes_at f p n = Some l -> 0 <= p -> p <= zlen f -> p + Z.of_nat n <= zlen f /\ l = firstn n (skipn (Z.to_nat p) f).
Proof.
  unfold bytes_at. intros H P Q. destruct ((0 <=? p) && _) eqn:E; [|discriminate]. injection H as <-. split; [|reflexivity].
  apply andb_prop in E. destruct E as [_ E]. apply Nat.eqb_eq in E. rewrite firstn_length, skipn_length in E. unfold zlen in *. lia.
Qed.
Lemma fwd_bytes n : fwd (rbytes n).
Proof.
  intros f p y q P H. unfold rbytes in H. destruct (bytes_at f p n) eqn:E; [|discriminate]. injection H as _ <-.
  destruct (bytes_at_len _ _ _ _ E ltac:(lia) ltac:(lia)) as [L _]. lia.
Qed.
Lemma fwd_num n : fwd (rnum n).
Proof.
  intros f p y q P H. unfold rnum, num_at in H. destruct (bytes_at f p n) eqn:E; [|discriminate]. injection H as _ <-.
  destruct (bytes_at_len _ _ _ _ E ltac:(lia) ltac:(lia)) as [L _]. lia.
Qed.
Lemma fwd_skip n : fwd (rskip n).
Proof. apply fwd_bind; [apply fwd_bytes|]. intros x. apply fwd_ret. Qed.
Lemma fwd_rep {A} (m : rdr A) : fwd m -> forall n, fwd (rrep n m).
Proof.
  intros M. induction n as [|n IH]; cbn [rrep]; [apply fwd_ret|]. apply fwd_bind; [exact M|]. intros x. apply fwd_bind; [exact IH|]. intros l. apply fwd_ret.
Qed.
Ltac fwd_tac :=
  repeat first
   [ apply fwd_ret | apply fwd_num | apply fwd_skip | apply fwd_bytes | apply fwd_none
   | apply fwd_bind; [|intros ?] | apply fwd_rep
   | match goal with |- fwd (if ?b then _ else _) => destruct b end ].
Lemma fwd_mvhd : fwd get_mvhd. Proof. unfold get_mvhd. fwd_tac. Qed.
Lemma fwd_tkhd : fwd get_tkhd. Proof. unfold get_tkhd. fwd_tac. Qed.
Lemma fwd_mdhd : fwd get_mdhd. Proof. unfold get_mdhd. fwd_tac. Qed.
Lemma fwd_hdlr n : fwd (get_hdlr n). Proof. unfold get_hdlr. fwd_tac. Qed.
Lemma fwd_visual : fwd get_visual. Proof. unfold get_visual. fwd_tac. Qed.
Lemma fwd_audio : fwd get_audio. Proof. unfold get_audio. fwd_tac. Qed.
Lemma fwd_ftyp n : fwd (get_ftyp n). Proof. unfold get_ftyp. fwd_tac. Qed.
Lemma fwd_elst : fwd get_elst. Proof. unfold get_elst. fwd_tac. Qed.
Lemma group_len_aux n : forall l, (length l <= n)%nat -> (4 * length (group l) <= length l)%nat.
Proof.
  induction n as [|n IH]; intros l L; [destruct l; [cbn; lia|cbn in L; lia]|].
  destruct l as [|a [|b [|c [|d l]]]]; cbn [group length] in *; try lia. specialize (IH l ltac:(lia)). lia.
Qed.
Lemma fwd_words {A} (parse : list Z -> option (A * list Z)) : fwd (rwords parse).
Proof.
  intros f p y q P H. unfold rwords in H. cbv zeta in H. destruct (parse _) as [[x rest]|]; [|discriminate].
  assert (Q : q = p + 4 * Z.of_nat (length (group (skipn (Z.to_nat p) f)) - length rest)) by congruence.
  pose proof (group_len_aux _ (skipn (Z.to_nat p) f) (le_n _)) as G. rewrite skipn_length in G. unfold zlen in *. lia.
Qed.

(** * Boxes *)
Definition at_box (f : list Z) (b : rd) : Prop := 0 <= r_box b /\ r_box b + 8 <= r_pos b <= zlen f.
Lemma do_box_at f p b : 0 <= p <= zlen f -> do_box f p = Some b -> r_box b = p /\ at_box f b.
Proof.
  unfold do_box, parse_box, num_at. intros P H.
  destruct (bytes_at f p 4) as [l1|] eqn:E1; [|discriminate]. apply bytes_at_len in E1; [|lia|lia]. destruct E1 as [E1 _].
  destruct (bytes_at f (p + 4) 4) as [l2|] eqn:E2; [|discriminate]. apply bytes_at_len in E2; [|lia|lia]. destruct E2 as [E2 _].
  assert (R : forall s q, p + 8 <= q <= zlen f ->
     match (if be_val 0 l2 =? uuid then match bytes_at f q 16 with Some _ => Some (u64 (s - 16), be_val 0 l2, q + 16) | None => None end else Some (s, be_val 0 l2, q)) with
     | Some (s, t, q) => Some (mkR q p s t) | None => None end = Some b -> r_box b = p /\ at_box f b).
  { intros s q Q K. destruct (be_val 0 l2 =? uuid).
    - destruct (bytes_at f q 16) eqn:E3; [|discriminate]. apply bytes_at_len in E3; [|lia|lia]. destruct E3 as [E3 _]. injection K as <-. unfold at_box; cbn. lia.
    - injection K as <-. unfold at_box; cbn. lia. }
  destruct (be_val 0 l1 =? 1).
  - destruct (bytes_at f (p + 8) 4) as [l3|] eqn:E3; [|discriminate]. apply bytes_at_len in E3; [|lia|lia]. destruct E3 as [E3 _].
    destruct (bytes_at f (p + 12) 4) as [l4|] eqn:E4; [|discriminate]. apply bytes_at_len in E4; [|lia|lia]. destruct E4 as [E4 _].
    apply (R (be_val 0 l3 * 2 ^ 32 + be_val 0 l4) (p + 16)); [lia|exact H].
  - apply (R (be_val 0 l1) (p + 8)); [lia|exact H].
Qed.
(** do_box: the next box, or at the end of the file the same one *)
Lemma next_box_at f b g b' g' : 0 <= r_pos b <= zlen f -> next_box f b g = Some (b', g') ->
  (r_pos b = zlen f /\ b' = b /\ g' = g) \/ (r_pos b < zlen f /\ r_box b' = r_pos b /\ at_box f b').
Proof.
  unfold next_box, next. intros P H. destruct (Z.leb_spec (zlen f) (r_pos b)) as [L|L].
  - left. injection H as <- <-. repeat split; lia.
  - right. destruct (do_box f (r_pos b)) as [c|] eqn:E; [|discriminate]. injection H as <- _.
    destruct (do_box_at f (r_pos b) c ltac:(lia) E) as [B1 B2]. repeat split; try lia; apply B2.
Qed.
Lemma skip_loop_nonneg n : forall z, 0 <= skip_loop n z.
Proof. induction n as [|n IH]; intros z; cbn [skip_loop]; [lia|]. destruct (31 <? z); [pose proof (IH (z - 31)); lia|]. destruct (0 <? z) eqn:E; lia. Qed.
Lemma skip_forward b : r_pos b <= skip_current b.
Proof.
  unfold skip_current, skipbytes. pose proof (skip_loop_nonneg (S (Z.to_nat (u64 ((r_size b - 8) * 8) / 31))) (u64 ((r_size b - 8) * 8))).
  pose proof (Z.div_pos (skip_loop (S (Z.to_nat (u64 ((r_size b - 8) * 8) / 31))) (u64 ((r_size b - 8) * 8))) 8 H ltac:(lia)). lia.
Qed.

(** * The invariant and the measure *)
Definition rank (s : state) : Z :=
  match q_mode s with
  | Media _ _ _ => if r_type (q_box s) =? STSD then 5 else 1
  | Entry _ _ _ | Visual _ _ _ _ => 4
  | Top => 3
  | Track _ => 2
  end.
Definition more (s : state) : Z := match q_mode s with Entry _ _ n => 2 * n + 1 | Visual _ _ n _ => 2 * n | _ => 0 end.
Definition measure (f : list Z) (s : state) : Z := (zlen f - r_box (q_box s)) * 2 ^ 40 + rank s * 2 ^ 36 + more s.
Definition in_mode (f : list Z) (m : mode) : Prop :=
  match m with
  | Top => True
  | Track k => i_end k <= zlen f
  | Media k _ e => i_end k <= zlen f /\ e <= zlen f
  | Entry k _ n => i_end k <= zlen f /\ 1 <= n < 2 ^ 32
  | Visual k _ n e => i_end k <= zlen f /\ 1 <= n < 2 ^ 32 /\ e <= zlen f
  end.
Definition Inv (f : list Z) (s : state) : Prop := at_box f (q_box s) /\ in_mode f (q_mode s).
Lemma small f s : Inv f s -> 0 <= rank s * 2 ^ 36 + more s < 2 ^ 40 /\ 0 <= more s < 2 ^ 36.
Proof.
  intros [_ M]. unfold rank, more. destruct (q_mode s); cbn in M; [| |destruct (_ =? _)| |]; lia.
Qed.
Lemma measure_nonneg f s : Inv f s -> 0 <= measure f s.
Proof. intros I. pose proof (small f s I) as S1. destruct I as [[B1 B2] _]. unfold measure. nia. Qed.
(** a later box *)
Lemma later f s s' : Inv f s -> Inv f s' -> r_box (q_box s) < r_box (q_box s') -> measure f s' < measure f s.
Proof. intros I I' L. pose proof (small f s I). pose proof (small f s' I'). unfold measure. nia. Qed.
(** the same box, further down *)
Lemma lower f s s' : Inv f s -> Inv f s' -> r_box (q_box s) = r_box (q_box s') -> rank s' < rank s -> measure f s' < measure f s.
Proof. intros I I' L R. pose proof (small f s I). pose proof (small f s' I'). unfold measure. rewrite L. nia. Qed.
(** the same box, fewer entries to read *)
Lemma fewer f s s' : Inv f s -> Inv f s' -> r_box (q_box s) <= r_box (q_box s') -> rank s' = rank s -> more s' < more s -> measure f s' < measure f s.
Proof. intros I I' L R M. unfold measure. rewrite R. nia. Qed.

(** * One step *)
Definition goes (f : list Z) (s s' : state) : Prop := Inv f s' /\ measure f s' < measure f s.
Section Step.
Context (f : list Z) (s : state) (HI : Inv f s).
(** a position reached from the current box *)
Definition from (b : rd) : Prop := r_box b = r_box (q_box s) /\ r_box (q_box s) < r_pos b <= zlen f.
Lemma back_top_goes b g s' : from b -> back_top f b g = Some s' -> goes f s s'.
Proof.
  intros [F1 F2] H. destruct HI as [[A1 A2] A3]. unfold back_top, next in H. destruct (Z.ltb_spec (r_pos b) (zlen f)) as [L|L]; [|discriminate].
  destruct (next_box f b g) as [[b' g']|] eqn:E; [|discriminate]. injection H as <-.
  destruct (next_box_at f b g b' g' ltac:(lia) E) as [C|C]; [lia|].
  assert (I' : Inv f (mkSt b' g' Top)) by (split; [apply C|exact Logic.I]). split; [exact I'|]. apply later; [exact HI|exact I'|cbn; lia].
Qed.
Lemma back_track_goes k b g s' : i_end k <= zlen f -> from b -> back_track f k b g = Some s' -> goes f s s'.
Proof.
  intros K F H. unfold back_track in H. destruct (Z.ltb_spec (r_pos b) (i_end k)) as [L|L]; [|exact (back_top_goes b g s' F H)].
  destruct F as [F1 F2]. destruct HI as [[A1 A2] A3]. unfold next in H. destruct (next_box f b g) as [[b' g']|] eqn:E; [|discriminate]. injection H as <-.
  destruct (next_box_at f b g b' g' ltac:(lia) E) as [C|C]; [lia|].
  assert (I' : Inv f (mkSt b' g' (Track k))) by (split; [apply C|exact K]). split; [exact I'|]. apply later; [exact HI|exact I'|cbn; lia].
Qed.
(** back at the start of the box, from a sample entry *)
Lemma back_track_same k b g s' : i_end k <= zlen f -> rank s = 4 -> r_pos b = r_box (q_box s) -> back_track f k b g = Some s' -> goes f s s'.
Proof.
  intros K R F H. destruct HI as [[A1 A2] A3]. unfold back_track, back_top, next in H.
  destruct (Z.ltb_spec (r_pos b) (i_end k)) as [L|L].
  - destruct (next_box f b g) as [[b' g']|] eqn:E; [|discriminate]. injection H as <-.
    destruct (next_box_at f b g b' g' ltac:(lia) E) as [C|C]; [lia|].
    assert (I' : Inv f (mkSt b' g' (Track k))) by (split; [apply C|exact K]). split; [exact I'|]. apply lower; [exact HI|exact I'|cbn; lia|rewrite R; cbn; lia].
  - destruct (Z.ltb_spec (r_pos b) (zlen f)) as [L2|L2]; [|discriminate].
    destruct (next_box f b g) as [[b' g']|] eqn:E; [|discriminate]. injection H as <-.
    destruct (next_box_at f b g b' g' ltac:(lia) E) as [C|C]; [lia|].
    assert (I' : Inv f (mkSt b' g' Top)) by (split; [apply C|exact Logic.I]). split; [exact I'|]. apply lower; [exact HI|exact I'|cbn; lia|rewrite R; cbn; lia].
Qed.
Lemma skipped_from b : from b -> from (skipped f b).
Proof. intros [F1 F2]. pose proof (skip_forward b). unfold from, skipped; cbn. lia. Qed.
Lemma not_found_goes k h e b g s' : i_end k <= zlen f -> e <= zlen f -> from b -> not_found f k h e b g = Some s' -> goes f s s'.
Proof.
  intros K E F H.
  assert (Go : r_pos b < e -> next (next_box f b g) (fun r => Some (mkSt (fst r) (snd r) (Media k h e))) = Some s' -> goes f s s').
  { intros L Q. destruct F as [F1 F2]. destruct HI as [[A1 A2] A3]. unfold next in Q. destruct (next_box f b g) as [[b' g']|] eqn:N; [|discriminate]. injection Q as <-.
    destruct (next_box_at f b g b' g' ltac:(lia) N) as [C|C]; [lia|].
    assert (I' : Inv f (mkSt b' g' (Media k h e))) by (split; [apply C|split; [exact K|exact E]]). split; [exact I'|]. apply later; [exact HI|exact I'|cbn; lia]. }
  unfold not_found in H. cbv zeta in H. destruct h.
  - destruct (Z.leb_spec e (r_pos b)); [discriminate|exact (Go H0 H)].
  - destruct (Z.leb_spec e (r_pos b)); [discriminate|exact (Go H0 H)].
  - destruct (Z.leb_spec e (r_pos b)); [exact (back_track_goes k b g s' K F H)|exact (Go H0 H)].
  - exact (back_track_goes k _ g s' K (skipped_from b F) H).
Qed.
(** after a sample entry; the position may be the start of the box again *)
Lemma back_entry_goes k h n b g s' : i_end k <= zlen f -> 1 <= n < 2 ^ 32 -> rank s = 4 -> 2 * n <= more s -> r_box b = r_box (q_box s) ->
  r_box (q_box s) <= r_pos b <= zlen f -> (r_pos b = zlen f -> r_box b + 8 <= r_pos b) -> back_entry f k h n b g = Some s' -> goes f s s'.
Proof.
  intros K N R M B P P8 H. unfold back_entry in H. destruct (Z.leb_spec n 1) as [L|L].
  - destruct (Z.eq_dec (r_pos b) (r_box (q_box s))) as [Q|Q]; [exact (back_track_same k b g s' K R Q H)|].
    apply (back_track_goes k b g s' K); [split; lia|exact H].
  - unfold next in H. destruct (next_box f b g) as [[b' g']|] eqn:E; [|discriminate]. injection H as <-.
    destruct HI as [[A1 A2] A3].
    assert (X : r_box (q_box s) <= r_box b' /\ at_box f b').
    { destruct (next_box_at f b g b' g' ltac:(lia) E) as [(C1 & -> & _)|(C1 & C2 & C3)]; [|split; [lia|exact C3]].
      split; [lia|]. split; lia. }
    assert (I' : Inv f (mkSt b' g' (Entry k h (n - 1)))) by (split; [apply X|split; [exact K|lia]]). split; [exact I'|].
    apply fewer; [exact HI|exact I'|cbn; lia|rewrite R; reflexivity|change (2 * (n - 1) + 1 < more s); lia].
Qed.
End Step.

(** * Tracks *)
Lemma track_box_forward f b t t' p : at_box f b -> r_type b <> MINF -> track_box f b t = Some (t', p) -> r_pos b <= p.
Proof.
  intros [A1 A2] T H. unfold track_box in H. cbv zeta in H. destruct t as [h ts d lang id width height es tb tr off mv].
  destruct (_ || _ || _); [injection H as _ <-; lia|].
  assert (FW : forall A (r : rdr A) (K : A * Z -> option (rtrack * Z)), fwd r -> (forall x, match K x with Some (_, q) => q = snd x | None => True end) ->
     next (r f (r_pos b)) K = Some (t', p) -> r_pos b <= p).
  { intros A r K R KK Q. unfold next in Q. destruct (r f (r_pos b)) as [[x q]|] eqn:E; [|discriminate]. specialize (KK (x, q)). rewrite Q in KK. cbn in KK. subst p.
    pose proof (R f (r_pos b) x q ltac:(lia) E). lia. }
  destruct (_ =? TKHD). { refine (FW _ get_tkhd _ fwd_tkhd _ H). intros [[[i x] y] q]. reflexivity. }
  destruct (_ =? MDHD). { refine (FW _ get_mdhd _ fwd_mdhd _ H). intros [[[i x] y] q]. reflexivity. }
  destruct (_ =? HDLR). { refine (FW _ (get_hdlr _) _ (fwd_hdlr _) _ H). intros [i q]. reflexivity. }
  destruct (Z.eqb_spec (r_type b) MINF) as [Q|_]; [contradiction|].
  destruct (_ =? box_stts). { refine (FW _ (rwords _) _ (fwd_words _) _ H). intros [[i x] q]. reflexivity. }
  destruct (_ =? box_ctts). { refine (FW _ (rwords _) _ (fwd_words _) _ H). intros [[i x] q]. reflexivity. }
  destruct (_ =? ELST). { refine (FW _ get_elst _ fwd_elst _ H). intros [i q]. destruct (parse_elst f (r_pos b)); [reflexivity|exact Logic.I]. }
  destruct (_ =? box_stss). { refine (FW _ (rwords _) _ (fwd_words _) _ H). intros [i q]. reflexivity. }
  destruct (_ =? box_stco). { refine (FW _ (rwords _) _ (fwd_words _) _ H). intros [i q]. reflexivity. }
  destruct (_ =? box_stsc). { refine (FW _ (rwords _) _ (fwd_words _) _ H). intros [i q]. reflexivity. }
  destruct (_ =? box_stsz). { refine (FW _ (rwords _) _ (fwd_words _) _ H). intros [[[i x] y] q]. reflexivity. }
  injection H as _ <-. apply skip_forward.
Qed.
Lemma media_goes f s k h s' : Inv f s -> q_mode s = Track k -> r_type (q_box s) = MINF -> end_of (q_box s) <= zlen f ->
  media f k h (q_box s) (q_guid s) = Some s' -> goes f s s'.
Proof.
  intros HI M T E H. pose proof HI as [[A1 A2] A3]. rewrite M in A3. cbn in A3. unfold media, next in H. cbv zeta in H.
  destruct (next_box f (q_box s) (q_guid s)) as [[b1 g1]|] eqn:N; [|discriminate].
  pose proof (next_box_at f (q_box s) (q_guid s) b1 g1 ltac:(lia) N) as C.
  assert (Loop : forall b g, at_box f b -> r_box (q_box s) < r_box b \/ (r_box (q_box s) = r_box b /\ r_type b = MINF) -> goes f s (mkSt b g (Media k h (end_of (q_box s))))).
  { intros b g B Q. assert (I' : Inv f (mkSt b g (Media k h (end_of (q_box s))))) by (split; [exact B|split; [exact A3|exact E]]). split; [exact I'|].
    destruct Q as [Q|[Q1 Q2]]; [apply later; [exact HI|exact I'|exact Q]|]. apply lower; [exact HI|exact I'|exact Q1|]. unfold rank. rewrite M. cbn [q_mode q_box]. rewrite Q2. reflexivity. }
  assert (B1 : at_box f b1 /\ (r_box (q_box s) < r_box b1 \/ (r_box (q_box s) = r_box b1 /\ r_type b1 = MINF))).
  { destruct C as [(C1 & -> & _)|(C1 & C2 & C3)]; [split; [apply HI|right; split; [reflexivity|exact T]]|]. split; [exact C3|left; lia]. }
  destruct B1 as [B1 B2].
  (* a second do_box, from a later position *)
  assert (Two : forall q, r_pos b1 <= q <= zlen f -> match next_box f (at_pos b1 q) g1 with Some r => Some (mkSt (fst r) (snd r) (Media k h (end_of (q_box s)))) | None => None end = Some s' -> goes f s s').
  { intros q Q K. destruct (next_box f (at_pos b1 q) g1) as [[b2 g2]|] eqn:N2; [|discriminate]. injection K as <-.
    pose proof B1 as [B3 B4]. pose proof (next_box_at f (at_pos b1 q) g1 b2 g2 ltac:(cbn; lia) N2) as [(D1 & -> & ->)|(D1 & D2 & D3)].
    - apply Loop; [split; cbn; lia|exact B2].
    - apply Loop; [exact D3|left; cbn in D2; lia]. }
  assert (Head : forall n, match match rskip n f (r_pos b1) with Some r => next_box f (at_pos b1 (snd r)) g1 | None => None end with Some r => Some (mkSt (fst r) (snd r) (Media k h (end_of (q_box s)))) | None => None end = Some s' -> goes f s s').
  { intros n K. destruct (rskip n f (r_pos b1)) as [[u q]|] eqn:R; [|discriminate]. destruct B1 as [B3 B4]. pose proof (fwd_skip n f (r_pos b1) u q ltac:(lia) R). apply (Two q); [lia|exact K]. }
  destruct h.
  - destruct (_ =? VMHD); [|injection H as <-; apply Loop; assumption]. apply (Head 12%nat). destruct (rskip 12 f (r_pos b1)) as [[u q]|]; [exact H|discriminate].
  - destruct (_ =? SMHD); [|injection H as <-; apply Loop; assumption]. apply (Head 8%nat). destruct (rskip 8 f (r_pos b1)) as [[u q]|]; [exact H|discriminate].
  - destruct (_ =? SMHD); [|discriminate]. apply (Head 8%nat). destruct (rskip 8 f (r_pos b1)) as [[u q]|]; [exact H|discriminate].
  - apply (Two (Z.min (zlen f) (skip_current b1))); [|exact H]. pose proof (skip_forward b1). destruct B1 as [B3 B4]. lia.
Qed.

(** * All steps *)
Lemma be_val_bound : forall l, bytes l -> forall acc, 0 <= acc -> 0 <= be_val acc l < (acc + 1) * 256 ^ zlen l.
Proof.
  induction l as [|x l IH]; intros B acc A; cbn [be_val]; [change (zlen (@nil Z)) with 0; lia|].
  inversion B as [|? ? B1 B2]; subst. unfold is_byte in B1. specialize (IH B2 (acc * 256 + x) ltac:(lia)).
  rewrite zlen_cons, Z.pow_add_r by (unfold zlen; lia). change (256 ^ 1) with 256. pose proof (Z.pow_pos_nonneg 256 (zlen l) ltac:(lia) ltac:(unfold zlen; lia)). nia.
Qed.
Lemma count_bound f p n q : bytes f -> rnum 4 f p = Some (n, q) -> 0 <= p <= zlen f -> 0 <= n < 2 ^ 32.
Proof.
  unfold rnum, num_at. intros B H P. destruct (bytes_at f p 4) as [l|] eqn:E; [|discriminate]. injection H as <- _.
  assert (L : zlen l = 4). { unfold bytes_at in E. destruct (_ && _) eqn:Q; [|discriminate]. apply andb_prop in Q. destruct Q as [_ Q]. apply Nat.eqb_eq in Q. unfold zlen. injection E as E. change (firstn 4 (skipn (Z.to_nat p) f) = l) in E. rewrite <- E, Q. reflexivity. }
  apply bytes_at_len in E; [|lia|lia]. destruct E as [_ ->].
  assert (Bl : bytes (firstn 4 (skipn (Z.to_nat p) f))).
  { unfold bytes in *. rewrite Forall_forall in *. intros x X. apply B. rewrite <- (firstn_skipn (Z.to_nat p) f). apply in_or_app. right. rewrite <- (firstn_skipn 4 (skipn (Z.to_nat p) f)). apply in_or_app. left. exact X. }
  pose proof (be_val_bound _ Bl 0 ltac:(lia)) as R. rewrite L in R. change ((0 + 1) * 256 ^ 4) with (2 ^ 32) in R. exact R.
Qed.
Lemma step_goes f s s' : bytes f -> Inv f s -> honest f s -> step f s = Some s' -> goes f s s'.
Proof.
  intros BY HI [Ho1 Ho2] H. pose proof HI as [[A1 A2] A3]. unfold step in H. cbv zeta in H.
  assert (FR : forall q, r_pos (q_box s) <= q <= zlen f -> from f s (at_pos (q_box s) q)) by (intros q Q; split; cbn; lia).
  assert (F0 : from f s (q_box s)) by (split; lia).
  assert (FS : from f s (skipped f (q_box s))) by (apply skipped_from; exact F0).
  assert (RD : forall A (r : rdr A) K, fwd r -> next (r f (r_pos (q_box s))) K = Some s' -> exists x q, r_pos (q_box s) <= q <= zlen f /\ K (x, q) = Some s').
  { intros A r K R Q. unfold next in Q. destruct (r f (r_pos (q_box s))) as [[x q]|] eqn:E; [|discriminate]. exists x, q. split; [exact (R f (r_pos (q_box s)) x q ltac:(lia) E)|exact Q]. }
  destruct (q_mode s) as [|k|k h e|k h n|k h n e] eqn:M; cbn in A3.
  - (* Top *)
    destruct (_ || _). { apply RD in H; [|apply fwd_ftyp]. destruct H as (x & q & Q & H). exact (back_top_goes f s HI _ _ s' (FR q Q) H). }
    destruct (_ =? MVHD). { apply RD in H; [|apply fwd_mvhd]. destruct H as (x & q & Q & H). exact (back_top_goes f s HI _ _ s' (FR q Q) H). }
    destruct (_ || _) eqn:T.
    { refine (back_top_goes f s HI _ _ s' _ H). split; [reflexivity|]. cbn [r_pos at_pos].
      assert (S1 : ~ stuck (q_box s)). { apply Ho1. apply orb_prop in T. destruct T as [T|T]; apply Z.eqb_eq in T; rewrite T; cbn; auto. }
      unfold stuck in S1. unfold end_of, u64. lia. }
    destruct (_ =? MOOV). { exact (back_top_goes f s HI _ _ s' F0 H). }
    destruct (Z.eqb_spec (r_type (q_box s)) TRAK) as [T2|_].
    { injection H as <-. assert (S1 : ~ outside f (q_box s)) by (apply Ho2; left; rewrite T2; cbn; auto).
      assert (I' : Inv f (mkSt (q_box s) (q_guid s) (Track (mkIn false (end_of (q_box s)) (rtrack0 0))))).
      { split; [exact (proj1 HI)|]. cbn. unfold outside in S1. unfold end_of, u64. lia. }
      split; [exact I'|]. apply lower; [exact HI|exact I'|reflexivity|]. unfold rank. rewrite M. cbn. lia. }
    destruct (_ && _) eqn:T3.
    { apply andb_prop in T3. destruct T3 as [T3 T4]. apply Z.eqb_eq in T3.
      assert (S1 : ~ outside f (q_box s)).
      { apply Ho2. right. left. split; [exact T3|]. unfold is_ltc in T4. destruct (list_eq_dec _ _ _) as [Q|]; [exact Q|discriminate]. }
      unfold next in H. destruct (next_box f (q_box s) (q_guid s)) as [[b1 g1]|] eqn:N; [|discriminate]. injection H as <-.
      assert (E1 : end_of (q_box s) <= zlen f) by (unfold outside in S1; unfold end_of, u64; lia).
      destruct (next_box_at f (q_box s) (q_guid s) b1 g1 ltac:(lia) N) as [(C1 & -> & ->)|(C1 & C2 & C3)].
      - assert (I' : Inv f (mkSt (q_box s) (q_guid s) (Track (mkIn true (end_of (q_box s)) (rtrack0 0))))) by (split; [exact (proj1 HI)|exact E1]).
        split; [exact I'|]. apply lower; [exact HI|exact I'|reflexivity|]. unfold rank. rewrite M. cbn. lia.
      - assert (I' : Inv f (mkSt b1 g1 (Track (mkIn true (end_of (q_box s)) (rtrack0 0))))) by (split; [exact C3|exact E1]).
        split; [exact I'|]. apply later; [exact HI|exact I'|cbn; lia]. }
    exact (back_top_goes f s HI _ _ s' FS H).
  - (* Track *)
    destruct (Z.eqb_spec (r_type (q_box s)) MINF) as [T|T].
    { unfold next in H. destruct (handler_of k) as [h|]; [|discriminate]. apply (media_goes f s k h s' HI M T); [|exact H].
      assert (S1 : ~ outside f (q_box s)) by (apply Ho2; left; rewrite T; cbn; auto). unfold outside in S1. unfold end_of, u64. lia. }
    unfold next in H. destruct (track_box f (q_box s) (i_track k)) as [[t q]|] eqn:E; [|discriminate].
    pose proof (track_box_forward f _ _ _ _ (proj1 HI) T E).
    apply (back_track_goes f s HI (mkIn (i_ltc k) (i_end k) t) (at_pos (q_box s) (Z.min (zlen f) q)) (q_guid s) s' A3); [|exact H]. apply FR. lia.
  - (* Media *)
    destruct A3 as [A3 A4].
    destruct (_ || _). { exact (not_found_goes f s HI k h e _ _ s' A3 A4 F0 H). }
    destruct (_ =? DREF).
    { unfold next in H. destruct (parse_dref f (r_pos (q_box s))) as [q|] eqn:E; [|discriminate].
      refine (not_found_goes f s HI k h e _ _ s' A3 A4 _ H). apply FR.
      unfold parse_dref in E. destruct (rskip 8 f (r_pos (q_box s))) as [[u p1]|] eqn:E1; [|discriminate]. apply fwd_skip in E1; [|lia].
      destruct (do_box f p1) as [c|] eqn:E2; [|discriminate]. apply do_box_at in E2; [|lia]. destruct E2 as [E2 [E3 E4]].
      destruct (rskip 4 f (r_pos c)) as [[u2 p2]|] eqn:E5; [|discriminate]. apply fwd_skip in E5; [|lia]. injection E as <-. lia. }
    destruct (Z.eqb_spec (r_type (q_box s)) STSD) as [T|T].
    { assert (R5 : rank s = 5) by (unfold rank; rewrite M, T; reflexivity).
      unfold next in H. destruct (rbind _ _ f (r_pos (q_box s))) as [[n q]|] eqn:E; [|discriminate]. cbn [fst snd] in H.
      assert (CB : r_pos (q_box s) <= q <= zlen f /\ 0 <= n < 2 ^ 32).
      { unfold rbind in E. destruct (rskip 4 f (r_pos (q_box s))) as [[u p1]|] eqn:E1; [|discriminate]. apply fwd_skip in E1; [|lia].
        pose proof (count_bound f p1 n q BY E ltac:(lia)). apply fwd_num in E; [|lia]. split; [lia|exact H0]. }
      destruct CB as [Q C]. destruct (Z.eqb_spec n 0) as [N0|N0]; [exact (not_found_goes f s HI k h e _ _ s' A3 A4 (FR q Q) H)|].
      destruct (next_box f (at_pos (q_box s) q) (q_guid s)) as [[b1 g1]|] eqn:N; [|discriminate]. injection H as <-.
      destruct (next_box_at f (at_pos (q_box s) q) (q_guid s) b1 g1 ltac:(cbn; lia) N) as [(C1 & -> & ->)|(C1 & C2 & C3)].
      - assert (I' : Inv f (mkSt (at_pos (q_box s) q) (q_guid s) (Entry k h n))) by (split; [split; cbn; lia|split; [exact A3|lia]]).
        split; [exact I'|]. apply lower; [exact HI|exact I'|reflexivity|rewrite R5; cbn; lia].
      - assert (I' : Inv f (mkSt b1 g1 (Entry k h n))) by (split; [exact C3|split; [exact A3|lia]]).
        split; [exact I'|]. apply later; [exact HI|exact I'|cbn in *; lia]. }
    exact (not_found_goes f s HI k h e _ _ s' A3 A4 FS H).
  - (* Entry *)
    destruct A3 as [A3 A4]. assert (R4 : rank s = 4) by (unfold rank; rewrite M; reflexivity).
    assert (MO : more s = 2 * n + 1) by (unfold more; rewrite M; reflexivity).
    assert (BE : forall b, from f s b -> back_entry f k h n b (q_guid s) = Some s' -> goes f s s').
    { intros b [B1 B2] K. apply (back_entry_goes f s HI k h n b (q_guid s) s' A3 A4 R4); try lia. exact K. }
    destruct h.
    + apply RD in H; [|apply fwd_visual]. destruct H as (x & q & Q & H). injection H as <-. cbn [snd].
      assert (S1 : ~ outside f (q_box s)) by (apply Ho2; right; right; unfold is_entry; rewrite M; exact Logic.I).
      assert (I' : Inv f (mkSt (at_pos (q_box s) q) (q_guid s) (Visual k Vide n (end_of (q_box s))))).
      { split; [split; cbn; lia|]. split; [exact A3|]. split; [exact A4|]. unfold outside in S1. unfold end_of, u64. lia. }
      split; [exact I'|]. apply fewer; [exact HI|exact I'|cbn; lia|rewrite R4; reflexivity|rewrite MO; change (2 * n < 2 * n + 1); lia].
    + apply RD in H; [|apply fwd_audio]. destruct H as (x & q & Q & H). cbn [snd] in H. refine (BE _ _ H).
      destruct (q <? end_of (q_box s)); [|exact (FR q Q)]. unfold read_bytes. cbn [r_pos at_pos]. split; [reflexivity|]. cbn. pose proof (Z.mod_pos_bound (end_of (q_box s) - q) (2 ^ 32) ltac:(lia)). unfold u32. lia.
    + destruct (is_ltc 239 (q_guid s)).
      * apply RD in H; [|apply fwd_skip]. destruct H as (x & q & Q & H). exact (BE _ (FR q Q) H).
      * apply (back_entry_goes f s HI k Ltc n _ (q_guid s) s' A3 A4 R4) in H; [exact H|lia|reflexivity|cbn; lia|cbn; lia].
    + exact (BE _ FS H).
  - (* Visual *)
    destruct A3 as [A3 [A4 A5]]. assert (R4 : rank s = 4) by (unfold rank; rewrite M; reflexivity).
    assert (MO : more s = 2 * n) by (unfold more; rewrite M; reflexivity).
    destruct (Z.ltb_spec (r_pos (q_box s)) e) as [L|L].
    2: { apply (back_entry_goes f s HI k h n (q_box s) (q_guid s) s' A3 A4 R4); try lia. exact H. }
    unfold next in H. destruct (next_box f (q_box s) (q_guid s)) as [[b1 g1]|] eqn:N; [|discriminate].
    destruct (next_box_at f (q_box s) (q_guid s) b1 g1 ltac:(lia) N) as [C|(C1 & C2 & C3)]; [lia|].
    pose proof C3 as [C4 C5].
    assert (AG : forall b, r_box b = r_box b1 -> r_pos b1 <= r_pos b <= zlen f -> goes f s (mkSt b g1 (Visual k h n e))).
    { intros b B1 B2. assert (I' : Inv f (mkSt b g1 (Visual k h n e))) by (split; [split; cbn; lia|split; [exact A3|split; [exact A4|exact A5]]]).
      split; [exact I'|]. apply later; [exact HI|exact I'|cbn; lia]. }
    destruct (_ =? AVCC). { injection H as <-. apply AG; [reflexivity|]. unfold read_bytes. cbn. pose proof (Z.mod_pos_bound (r_size b1 - 8) (2 ^ 32) ltac:(lia)). unfold u32. lia. }
    destruct (_ =? BTRT). { destruct (rskip 12 f (r_pos b1)) as [[u q]|] eqn:E; [|discriminate]. apply fwd_skip in E; [|lia]. injection H as <-. apply AG; [reflexivity|exact E]. }
    destruct (_ =? PASP). { destruct (rskip 8 f (r_pos b1)) as [[u q]|] eqn:E; [|discriminate]. apply fwd_skip in E; [|lia]. injection H as <-. apply AG; [reflexivity|exact E]. }
    injection H as <-. apply AG; [reflexivity|]. unfold skipped. cbn. pose proof (skip_forward b1). lia.
Qed.

(** * The whole run *)
Lemma after_S f n s : after f (S n) s = match step f s with Some s => after f n s | None => None end.
Proof. reflexivity. Qed.
Lemma start_inv f s : start f = Some s -> Inv f s /\ measure f s < (zlen f + 1) * 2 ^ 40.
Proof.
  unfold start, next. intros H. destruct (do_box f 0) as [b|] eqn:E; [|discriminate]. apply do_box_at in E; [|unfold zlen; lia]. destruct E as [E1 E2].
  destruct (_ || _); [|discriminate]. injection H as <-. split; [split; [exact E2|exact Logic.I]|]. unfold measure. cbn [q_box]. rewrite E1. unfold rank, more. cbn [q_mode]. lia.
Qed.
Lemma ends_from f (B : bytes f) : forall m s, Inv f s -> measure f s < Z.of_nat m ->
  (forall n s', after f n s = Some s' -> honest f s') -> after f m s = None.
Proof.
  induction m as [|m IH]; intros s HI HM HH; [pose proof (measure_nonneg f s HI); lia|].
  rewrite after_S. destruct (step f s) as [s1|] eqn:E; [|reflexivity].
  destruct (step_goes f s s1 B HI (HH 0%nat s eq_refl) E) as [I1 M1].
  apply IH; [exact I1|lia|]. intros n s' A. apply (HH (S n) s'). rewrite after_S, E. exact A.
Qed.
Lemma opening_ends f : bytes f -> (forall n s, looks_at f n = Some s -> honest f s) -> looks_at f (Z.to_nat ((zlen f + 1) * 2 ^ 40)) = None.
Proof.
  intros B H. unfold looks_at in *. destruct (start f) as [s|] eqn:E; [|reflexivity]. apply start_inv in E. destruct E as [I0 M0].
  apply (ends_from f B _ s I0); [|exact H]. rewrite Z2Nat.id by (unfold zlen; lia). exact M0.
Qed.

(** * Checking a run *)
Definition honestb (f : list Z) (s : state) : bool :=
  let b := q_box s in
  let e := (r_box b + r_size b) mod 2 ^ 64 in
  (negb ((r_type b =? MDAT) || (r_type b =? FREE)) || (r_box b <? e)) && (e <=? zlen f).
Lemma honestb_ok f s : honestb f s = true -> honest f s.
Proof.
  unfold honestb, honest, stuck, outside. cbv zeta. intros H. apply andb_prop in H. destruct H as [H1 H2]. split.
  - intros T. apply orb_prop in H1. destruct H1 as [H1|H1]; [|lia]. exfalso. apply negb_true_iff, orb_false_elim in H1. destruct H1 as [X Y]. destruct T as [T|[T|[]]]; lia.
  - intros _. lia.
Qed.
Fixpoint all_honest (f : list Z) (n : nat) (s : state) : bool :=
  match n with O => false | S n => honestb f s && match step f s with Some s => all_honest f n s | None => true end end.
Lemma all_honest_ok f : forall m s, all_honest f m s = true -> forall n s', after f n s = Some s' -> honest f s'.
Proof.
  induction m as [|m IH]; intros s H n s' A; [discriminate|]. cbn [all_honest] in H. apply andb_prop in H. destruct H as [H1 H2].
  destruct n as [|n]; [injection A as <-; apply honestb_ok; exact H1|]. rewrite after_S in A. destruct (step f s) as [s1|]; [|discriminate]. exact (IH s1 H2 n s' A).
Qed.
Lemma after_loop f s : step f s = Some s -> forall n, after f n s = Some s.
Proof. intros H. induction n as [|n IH]; [reflexivity|]. rewrite after_S, H. exact IH. Qed.
Lemma after_add f : forall n m s, after f (n + m) s = match after f n s with Some s => after f m s | None => None end.
Proof. induction n as [|n IH]; intros m s; [reflexivity|]. cbn [Nat.add]. rewrite !after_S. destruct (step f s); [apply IH|reflexivity]. Qed.
Lemma forever f n s : looks_at f n = Some s -> step f s = Some s -> forall m, (n <= m)%nat -> looks_at f m = Some s.
Proof.
  intros H L m N. unfold looks_at in *. destruct (start f) as [s0|]; [|discriminate]. replace m with (n + (m - n))%nat by lia.
  rewrite after_add, H. apply after_loop. exact L.
Qed.
