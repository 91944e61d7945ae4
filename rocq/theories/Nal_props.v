(** Property C25: emulation prevention. *)
From Coq Require Import ZifyNat.
From Verif Require Import Util Nal_model Nal_proofs.
Local Open Scope Z_scope.

(** Every RBSP, escaped as the standard says after its header byte, is restored, unless it
    ends in the byte 3. *)
Theorem C25_decode : forall h l, last l 0 <> 3 ->
  decode_nal (h :: escape 0 l) = Some (mknal (h / 32) (h mod 32) (h :: l)).
Proof.
  intros h l H. unfold decode_nal. rewrite (proj1 (dec_esc l)). unfold without_last_3. destruct (Z.eqb_spec (last l 0) 3); [contradiction|reflexivity].
Qed.
Print Assumptions C25_decode.
(** Refuted for the others: whatever comes before, the final 3 is lost. *)
Theorem C25_final_3_refuted : forall h l,
  decode_nal (h :: escape 0 (l ++ [3])) = Some (mknal (h / 32) (h mod 32) (h :: l)).
Proof.
  intros h l. unfold decode_nal. rewrite (proj1 (dec_esc (l ++ [3]))). unfold without_last_3. rewrite last_last. cbn [Z.eqb Pos.eqb]. rewrite removelast_last. reflexivity.
Qed.
Print Assumptions C25_final_3_refuted.
(** On any bytes at all the output fits in the buffer prepared (the size of the NAL). *)
Theorem C25_fits : forall l n, decode_nal l = Some n -> (length (rbsp n) <= length l)%nat.
Proof.
  intros [|h l] n E; [discriminate E|]. injection E as <-. cbn [rbsp length]. pose proof (dl_length (length l) l (le_n _)). lia.
Qed.
Print Assumptions C25_fits.
(** Decoding in place gives the same result: the output never overtakes the input. *)
Theorem C25_in_place : forall l n, decode_nal l = Some n ->
  exists p w, decode_nal_in_place l = Some (nal_ref_idc n, nal_unit_type n, p, w) /\ length p = length l /\ firstn w p = rbsp n.
Proof.
  intros [|h l] n E; [discriminate E|]. injection E as <-. unfold decode_nal_in_place.
  destruct (in_place_ok (length l) (length (h :: l)) (h :: l) 0 1) as (p & w & E & L & F & _); try (cbn [length]; lia).
  rewrite E. exists p, w. split; [reflexivity|]. split; [exact L|]. rewrite F. reflexivity.
Qed.
Print Assumptions C25_in_place.
Example C25_nonvacuous : escape 0 [0; 0; 0; 0; 1; 0; 0; 3; 0; 0] = [0; 0; 3; 0; 0; 3; 1; 0; 0; 3; 3; 0; 0; 3]
  /\ decode_nal (0x67 :: escape 0 [0; 0; 0; 0; 1; 0; 0; 3; 0; 0]) = Some (mknal 3 7 [0x67; 0; 0; 0; 0; 1; 0; 0; 3; 0; 0])
  /\ decode_nal [0x67; 5; 3] = Some (mknal 3 7 [0x67; 5]).
Proof. vm_compute. repeat split. Qed.
