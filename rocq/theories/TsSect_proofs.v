(** Proofs for TsSect_model: sections. *)
From Coq Require Import ZifyNat.
From Verif Require Import Util Bits_spec Bits_lemmas TsTime_model Ts_model Ts_proofs Ts_proofs2 Ts_proofs3 Ts_proofs4 Crc_model Crc_proofs Crc_proofs2 TsSect_model.
Local Open Scope Z_scope.
Local Ltac Zify.zify_post_hook ::= Z.div_mod_to_equations.

(** * Bits of bytes *)
Lemma bits_cons x l : bytes_bits (x :: l) = field_bits x 8 ++ bytes_bits l.
Proof. reflexivity. Qed.
Lemma bits_be16 v : bytes_bits (be16 v) = field_bits v 16.
Proof.
  unfold be16. rewrite !bits_cons. change 16%nat with (8 + 8)%nat. rewrite field_bits_split. f_equal.
  change (bytes_bits []) with (@nil bool). rewrite app_nil_r. apply (field_bits_mod v 8).
Qed.
Lemma field_cat a b m n : 0 <= b < 2 ^ Z.of_nat n -> field_bits (a * 2 ^ Z.of_nat n + b) (m + n) = field_bits a m ++ field_bits b n.
Proof.
  intros H. rewrite field_bits_split. f_equal.
  - f_equal. rewrite Z.add_comm, Z.div_add by lia. rewrite Z.div_small by exact H. lia.
  - rewrite <- (field_bits_mod (a * _ + b)). rewrite Z.add_comm, Z.mod_add by lia. rewrite Z.mod_small by exact H. reflexivity.
Qed.
Lemma bits_3_13 a p : pid_ok p -> bytes_bits (be16 (a * 8192 + p)) = field_bits a 3 ++ field_bits p 13.
Proof. intros H. rewrite bits_be16. exact (field_cat a p 3 13 H). Qed.
Lemma bits_4_12 a n : 0 <= n < 4096 -> bytes_bits (be16 (a * 4096 + n)) = field_bits a 4 ++ field_bits n 12.
Proof. intros H. rewrite bits_be16. exact (field_cat a n 4 12 H). Qed.

(** * Reading bytes *)
Lemma bget {B} v n rest (f : Z -> reader B) : 0 <= v < 2 ^ Z.of_nat n -> bind (get n) f (field_bits v n ++ rest) = f v rest.
Proof. intros H. unfold bind. rewrite get_field. rewrite Z.mod_small by exact H. reflexivity. Qed.
Lemma bget_any {B} v n rest (f : Z -> reader B) : bind (get n) f (field_bits v n ++ rest) = f (v mod 2 ^ Z.of_nat n) rest.
Proof. unfold bind. rewrite get_field. reflexivity. Qed.
Lemma b8 {B} x r (f : Z -> reader B) : is_byte x -> bind (get 8) f (bytes_bits (x :: r)) = f x (bytes_bits r).
Proof. intros H. rewrite bits_cons. apply bget. exact H. Qed.
Lemma b16 {B} v r (f : Z -> reader B) : w16 v -> bind (get 16) f (bytes_bits (be16 v ++ r)) = f v (bytes_bits r).
Proof. intros H. rewrite bytes_bits_app, bits_be16. apply bget. exact H. Qed.
Lemma b313 {B} a p r (f : Z -> Z -> reader B) : pid_ok p ->
  bind (get 3) (fun x => bind (get 13) (f x)) (bytes_bits (be16 (a * 8192 + p) ++ r)) = f (a mod 8) p (bytes_bits r).
Proof. intros H. rewrite bytes_bits_app, bits_3_13 by exact H. rewrite <- app_assoc, bget_any. apply bget. exact H. Qed.
Lemma b412 {B} a n r (f : Z -> Z -> reader B) : 0 <= n < 4096 ->
  bind (get 4) (fun x => bind (get 12) (f x)) (bytes_bits (be16 (a * 4096 + n) ++ r)) = f (a mod 16) n (bytes_bits r).
Proof. intros H. rewrite bytes_bits_app, bits_4_12 by exact H. rewrite <- app_assoc, bget_any. apply bget. exact H. Qed.
Lemma b24 {B} a b c r (f : Z -> reader B) : exists v, bind (get 24) f (bytes_bits (a :: b :: c :: r)) = f v (bytes_bits r).
Proof.
  rewrite !bits_cons. rewrite !app_assoc. set (w := (field_bits a 8 ++ field_bits b 8) ++ field_bits c 8).
  assert (L : length w = 24%nat) by (unfold w; rewrite !app_length, !field_bits_length; reflexivity).
  exists (bits_val w). unfold bind, get. rewrite app_length, L. destruct (Nat.ltb_spec (24 + length (bytes_bits r)) 24); [lia|].
  rewrite firstn_app, skipn_app, L, Nat.sub_diag, firstn_O, app_nil_r, firstn_all2, skipn_all2 by lia. reflexivity.
Qed.
Lemma b32 {B} v r (f : Z -> reader B) : 0 <= v < 2 ^ 32 -> bind (get 32) f (bytes_bits (be32 v ++ r)) = f v (bytes_bits r).
Proof.
  intros H. destruct (be32_bits v H) as [E L]. unfold bind, get. rewrite bytes_bits_app, app_length, L.
  destruct (Nat.ltb_spec (32 + length (bytes_bits r)) 32); [lia|].
  rewrite firstn_app, skipn_app, L, Nat.sub_diag, firstn_O, app_nil_r, firstn_all2, skipn_all2 by lia. cbn [app]. rewrite E. reflexivity.
Qed.

Lemma bind_ext {A B} (p : reader A) (f g : A -> reader B) bs : (forall x r, f x r = g x r) -> bind p f bs = bind p g bs.
Proof. intros H. unfold bind. destruct (p bs) as [[x r]|]; [apply H|reflexivity]. Qed.
(** section header *)
Lemma get_base_ok {B} table flags id version first last body r (f : Z * Z * Z -> reader B) :
  is_byte table -> w16 id -> zlen body < 4087 ->
  bind get_base f (bytes_bits (iso_section table flags id version first last body ++ r)) = f (table, 5 + zlen body + 4, id) (bytes_bits (body ++ r)).
Proof.
  intros H1 H2 H3. pose proof (zlen_nonneg body). unfold get_base, iso_section. rewrite bind_assoc. cbn [app]. rewrite b8 by exact H1. rewrite bind_assoc. rewrite <- !app_assoc.
  transitivity (bind (get 4) (fun x => bind (get 12) ((fun _ l => bind (i <- get 16 ;; _ <- get 24 ;; ret (table, l, i)) f) x)) (bytes_bits (be16 (flags * 4096 + (5 + zlen body + 4)) ++ be16 id ++ [version; first; last] ++ body ++ r))).
  { apply bind_ext. intros. apply bind_assoc. }
  rewrite b412 by lia. rewrite bind_assoc. rewrite b16 by exact H2. rewrite bind_assoc. cbn [app].
  destruct (b24 version first last (body ++ r) (fun _ => bind (ret (table, 5 + zlen body + 4, id)) f)) as [v E]. rewrite E. reflexivity.
Qed.
Lemma pointer0 {B} l (p : reader B) : bind get_pointer (fun _ => p) (bytes_bits (0 :: l)) = p (bytes_bits l).
Proof. unfold get_pointer. rewrite bind_assoc. rewrite b8 by (unfold is_byte; lia). reflexivity. Qed.

(** * PAT *)
Lemma get_programs_ok {B} r tail ps : forall (f : list (Z * Z) -> reader B), Forall (fun p => w16 (fst p) /\ pid_ok (snd p)) ps ->
  bind (get_programs (length ps)) f (bytes_bits (flat_map (iso_program r) ps ++ tail)) = f ps (bytes_bits tail).
Proof.
  induction ps as [|[a b] ps IH]; intros f H; [reflexivity|]. destruct (Forall_inv H) as [Ha Hb]. cbn [fst snd] in *.
  cbn [length get_programs flat_map]. unfold iso_program at 1. cbn [fst snd]. rewrite <- !app_assoc. rewrite bind_assoc, b16 by exact Ha.
  transitivity (bind (get 3) (fun x => bind (get 13) ((fun _ b0 => bind (r0 <- get_programs (length ps) ;; ret ((a, b0) :: r0)) f) x)) (bytes_bits (be16 (r * 8192 + b) ++ flat_map (iso_program r) ps ++ tail))).
  { rewrite bind_assoc. apply bind_ext. intros. apply bind_assoc. }
  rewrite b313 by exact Hb. rewrite bind_assoc. rewrite (IH (fun x => bind (ret ((a, b) :: x)) f)) by (exact (Forall_inv_tail H)). reflexivity.
Qed.
Lemma zlen_programs r ps : zlen (flat_map (iso_program r) ps) = 4 * zlen ps.
Proof. induction ps as [|p ps IH]; [reflexivity|]. cbn [flat_map]. rewrite zlen_app, IH, zlen_cons. unfold iso_program, be16. cbn [app]. rewrite !zlen_cons, zlen_nil. lia. Qed.
Lemma pat_count_ok n : 0 <= n < 2 ^ 20 -> pat_count (5 + 4 * n + 4) = Z.to_nat n.
Proof. intros H. unfold pat_count. f_equal. rewrite Z.mod_small by lia. replace (5 + 4 * n + 4 - 9) with (n * 4) by lia. apply Z.div_mul. lia. Qed.
Lemma get_pat_ok table flags id version first last r ps c tail : is_byte table -> w16 id -> 4 * zlen ps < 4087 ->
  Forall (fun p => w16 (fst p) /\ pid_ok (snd p)) ps -> 0 <= c < 2 ^ 32 ->
  get_pat (bytes_bits (iso_section table flags id version first last (flat_map (iso_program r) ps) ++ be32 c ++ tail)) = Some ((ps, c), bytes_bits tail).
Proof.
  intros H1 H2 H3 H4 H5. unfold get_pat. rewrite get_base_ok by (auto; rewrite zlen_programs; lia). rewrite zlen_programs.
  pose proof (zlen_nonneg ps). rewrite pat_count_ok by lia. unfold zlen. rewrite Nat2Z.id.
  rewrite get_programs_ok by exact H4. rewrite b32 by exact H5. reflexivity.
Qed.

(** * PMT *)
Lemma get_bytes_ok {B} l tail : forall (f : list Z -> reader B), bytes l -> bind (get_bytes (length l)) f (bytes_bits (l ++ tail)) = f l (bytes_bits tail).
Proof.
  induction l as [|x l IH]; intros f H; [reflexivity|]. cbn [length get_bytes app]. rewrite bind_assoc, b8 by (exact (Forall_inv H)).
  rewrite bind_assoc. rewrite (IH (fun r => bind (ret (x :: r)) f)) by (exact (Forall_inv_tail H)). reflexivity.
Qed.
Lemma get_descriptors_ok {B} tail ds : forall fuel (f : list (Z * list Z) -> reader B),
  Forall (fun d => is_byte (fst d) /\ bytes (snd d) /\ zlen (snd d) < 256) ds -> zlen (iso_descriptors ds) <= Z.of_nat fuel ->
  bind (get_descriptors fuel (zlen (iso_descriptors ds))) f (bytes_bits (iso_descriptors ds ++ tail)) = f ds (bytes_bits tail).
Proof.
  induction ds as [|[t d] ds IH]; intros fuel f H F.
  - destruct fuel; reflexivity.
  - destruct (Forall_inv H) as (Ht & Hd & Hl). cbn [fst snd] in *. pose proof (zlen_nonneg d).
    assert (E : zlen (iso_descriptors ((t, d) :: ds)) = 2 + zlen d + zlen (iso_descriptors ds)).
    { unfold iso_descriptors. cbn [flat_map fst snd]. rewrite zlen_app, !zlen_cons. lia. }
    pose proof (zlen_nonneg (iso_descriptors ds)). rewrite E in *.
    destruct fuel as [|k]; [lia|]. cbn [get_descriptors]. destruct (Z.leb_spec (2 + zlen d + zlen (iso_descriptors ds)) 0); [lia|].
    rewrite bind_assoc. unfold get_descriptor. rewrite bind_assoc.
    change (iso_descriptors ((t, d) :: ds)) with (t :: zlen d :: d ++ iso_descriptors ds). cbn [app]. rewrite b8 by exact Ht.
    rewrite bind_assoc. rewrite b8 by (unfold is_byte; lia). rewrite bind_assoc. unfold zlen at 1. rewrite Nat2Z.id. rewrite <- app_assoc.
    rewrite get_bytes_ok by exact Hd. rewrite bind_ret. cbn [snd]. rewrite bind_assoc.
    replace (2 + zlen d + zlen (iso_descriptors ds) - (zlen d + 2)) with (zlen (iso_descriptors ds)) by lia.
    rewrite (IH k (fun r => bind (ret ((t, d) :: r)) f)) by (try exact (Forall_inv_tail H); lia). reflexivity.
Qed.
Lemma zlen_stream r1 r2 t p ds : zlen (iso_stream r1 r2 (t, p, ds)) = 5 + zlen (iso_descriptors ds).
Proof. unfold iso_stream, be16. cbn [app]. rewrite !zlen_cons. lia. Qed.
Lemma get_streams_ok {B} r1 r2 tail ss : forall fuel (f : list (Z * Z * list (Z * list Z)) -> reader B),
  Forall stream_ok ss -> zlen (flat_map (iso_stream r1 r2) ss) <= Z.of_nat fuel ->
  bind (get_streams fuel (zlen (flat_map (iso_stream r1 r2) ss))) f (bytes_bits (flat_map (iso_stream r1 r2) ss ++ tail)) = f ss (bytes_bits tail).
Proof.
  induction ss as [|[[t p] ds] ss IH]; intros fuel f H F.
  - destruct fuel; reflexivity.
  - destruct (Forall_inv H) as (Ht & Hp & Hd & Hl).
    cbn [flat_map] in *. rewrite zlen_app, zlen_stream in *.
    pose proof (zlen_nonneg (iso_descriptors ds)). pose proof (zlen_nonneg (flat_map (iso_stream r1 r2) ss)).
    set (n := zlen (iso_descriptors ds)) in *. set (m := zlen (flat_map (iso_stream r1 r2) ss)) in *.
    destruct fuel as [|k]; [lia|]. cbn [get_streams]. destruct (Z.leb_spec (5 + n + m) 0); [lia|].
    unfold iso_stream at 1. fold n. rewrite bind_assoc. cbn [app]. rewrite b8 by exact Ht. rewrite <- !app_assoc.
    set (D := iso_descriptors ds ++ flat_map (iso_stream r1 r2) ss ++ tail) in *.
    transitivity (bind (get 3) (fun x => bind (get 13) ((fun _ p => bind (_ <- get 4 ;; n0 <- get 12 ;; ds0 <- get_descriptors (Z.to_nat n0) n0 ;; r <- get_streams k (5 + n + m - (5 + n0)) ;; ret ((t, p, ds0) :: r)) f) x)) (bytes_bits (be16 (r1 * 8192 + p) ++ be16 (r2 * 4096 + n) ++ D))).
    { rewrite bind_assoc. apply bind_ext. intros. apply bind_assoc. }
    rewrite b313 by exact Hp.
    transitivity (bind (get 4) (fun x => bind (get 12) ((fun _ n0 => bind (ds0 <- get_descriptors (Z.to_nat n0) n0 ;; r <- get_streams k (5 + n + m - (5 + n0)) ;; ret ((t, p, ds0) :: r)) f) x)) (bytes_bits (be16 (r2 * 4096 + n) ++ D))).
    { rewrite bind_assoc. apply bind_ext. intros. apply bind_assoc. }
    rewrite b412 by (unfold n in *; lia). rewrite bind_assoc. unfold D, n. rewrite get_descriptors_ok by (try exact Hd; lia).
    fold n. replace (5 + n + m - (5 + n)) with m by lia. rewrite bind_assoc. subst m n D.
    rewrite (IH k (fun r => bind (ret ((t, p, ds) :: r)) f)) by (try exact (Forall_inv_tail H); lia). reflexivity.
Qed.
Lemma get_pmt_ok table flags id version first last r1 r2 pcr info ss c tail :
  is_byte table -> w16 id -> pid_ok pcr -> descriptors_ok info -> Forall stream_ok ss ->
  zlen (iso_pmt_body r1 r2 pcr info ss) < 4087 -> 0 <= c < 2 ^ 32 ->
  get_pmt (bytes_bits (iso_section table flags id version first last (iso_pmt_body r1 r2 pcr info ss) ++ be32 c ++ tail))
  = Some (mkpmt id pcr info ss c, bytes_bits tail).
Proof.
  intros H1 H2 H3 [H4 H4'] H5 H6 H7. unfold get_pmt. rewrite get_base_ok by assumption.
  assert (E : zlen (iso_pmt_body r1 r2 pcr info ss) = 4 + zlen (iso_descriptors info) + zlen (flat_map (iso_stream r1 r2) ss)).
  { unfold iso_pmt_body, be16. cbn [app]. rewrite !zlen_cons, zlen_app. lia. }
  rewrite E in *. pose proof (zlen_nonneg (iso_descriptors info)). pose proof (zlen_nonneg (flat_map (iso_stream r1 r2) ss)).
  unfold iso_pmt_body. rewrite <- !app_assoc.
  set (n := zlen (iso_descriptors info)) in *. set (m := zlen (flat_map (iso_stream r1 r2) ss)) in *.
  set (D := iso_descriptors info ++ flat_map (iso_stream r1 r2) ss ++ be32 c ++ tail).
  set (L := 5 + (4 + n + m) + 4).
  transitivity (bind (get 3) (fun x => bind (get 13) ((fun _ p => (_ <- get 4 ;; n0 <- get 12 ;; info0 <- get_descriptors (Z.to_nat n0) n0 ;; ss0 <- get_streams (Z.to_nat 4096) ((L - 13 - n0) mod 2 ^ 32) ;; c0 <- get 32 ;; ret (mkpmt id p info0 ss0 c0))) x)) (bytes_bits (be16 (r1 * 8192 + pcr) ++ be16 (r2 * 4096 + n) ++ D))).
  { reflexivity. }
  rewrite b313 by exact H3.
  transitivity (bind (get 4) (fun x => bind (get 12) ((fun _ n0 => (info0 <- get_descriptors (Z.to_nat n0) n0 ;; ss0 <- get_streams (Z.to_nat 4096) ((L - 13 - n0) mod 2 ^ 32) ;; c0 <- get 32 ;; ret (mkpmt id pcr info0 ss0 c0))) x)) (bytes_bits (be16 (r2 * 4096 + n) ++ D))).
  { reflexivity. }
  rewrite b412 by lia. unfold D, n. rewrite get_descriptors_ok by (try exact H4; lia). fold n.
  replace ((L - 13 - n) mod 2 ^ 32) with m by (unfold L; rewrite Z.mod_small; lia). unfold m.
  rewrite get_streams_ok by (try exact H5; rewrite Z2Nat.id by lia; unfold m in *; lia).
  rewrite b32 by exact H7. reflexivity.
Qed.
