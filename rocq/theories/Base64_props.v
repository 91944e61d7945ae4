(** Property theorems for base64 (C01, C02, C03). *)
From Verif Require Import Util Base64_model Base64_spec Base64_proofs.

(** C01: encode in any chunking, cut the text anywhere, decode: the identity. *)
Theorem C01_base64_roundtrip : forall (junk : Z) (plain_chunks text_chunks : list (list Z)) (text : list Z),
  Forall bytes plain_chunks ->
  encode plain_chunks = Some text ->
  concat text_chunks = text ->
  decode junk text_chunks = Some (concat plain_chunks).
Proof. exact roundtrip. Qed.
Print Assumptions C01_base64_roundtrip.
Example C01_nonvacuous :
  encode [[1;255];[];[254;0;7]] = Some [65;102;47;43;65;65;99;61] /\
  decode 9 [[65];[102;47;43;65];[65;99;61]] = Some [1;255;254;0;7].
Proof. split; vm_compute; reflexivity. Qed.

(** C02: the text is the RFC 4648 one whatever the chunking; its length and shape. *)
Theorem C02_base64_is_rfc4648 : forall plain_chunks,
  Forall bytes plain_chunks -> encode plain_chunks = Some (rfc4648 (concat plain_chunks)).
Proof. exact encode_rfc. Qed.
Print Assumptions C02_base64_is_rfc4648.

Theorem C02_base64_length : forall plain_chunks text,
  Forall bytes plain_chunks -> encode plain_chunks = Some text ->
  zlen text = 4 * ((zlen (concat plain_chunks) + 2) / 3).
Proof.
  intros ch text HB HE. rewrite (encode_rfc ch HB) in HE. injection HE as <-. exact (rfc_length _).
Qed.
Print Assumptions C02_base64_length.

Theorem C02_base64_shape : forall plain_chunks text,
  Forall bytes plain_chunks -> encode plain_chunks = Some text ->
  exists body pad, text = body ++ pad /\ Forall alphabet_char body /\ (pad = [] \/ pad = [61] \/ pad = [61;61]).
Proof.
  intros ch text HB HE. rewrite (encode_rfc ch HB) in HE. injection HE as <-. exact (rfc_shape _).
Qed.
Print Assumptions C02_base64_shape.
Example C02_nonvacuous : encode [[77];[97]] = Some [84;87;69;61] (* "Ma" -> "TWE=" *) /\ rfc4648 [77;97;110] = [84;87;70;117].
Proof. split; vm_compute; reflexivity. Qed.

(** C03: decoding is defined (no out-of-bounds table read) exactly when the
    text has no opening brace, code 123; junk characters do not change the result. *)
Theorem C03_decode_defined_iff_no_brace : forall junk cuts,
  bytes (concat cuts) -> (decode junk cuts = None <-> In 123 (concat cuts)).
Proof.
  intros j cuts HB. unfold decode. rewrite decode_calls_concat.
  rewrite <- (decode_total j (concat cuts) dec_init HB).
  destruct (decode_block j (concat cuts) dec_init); split; intros H; try discriminate; reflexivity.
Qed.
Print Assumptions C03_decode_defined_iff_no_brace.

Theorem C03_junk_ignored : forall junk cuts1 cuts2,
  bytes (concat cuts1) -> bytes (concat cuts2) ->
  ~ In 123 (concat cuts1) -> ~ In 123 (concat cuts2) ->
  filter alphabet_charb (concat cuts1) = filter alphabet_charb (concat cuts2) ->
  decode junk cuts1 = decode junk cuts2.
Proof. exact decode_ignores_junk. Qed.
Print Assumptions C03_junk_ignored.
Example C03_nonvacuous : decode 0 [[10;84;87;45;69;61;200]] = Some [77;97].
Proof. vm_compute; reflexivity. Qed.

Theorem C03_table_overread_refuted : exists c, is_byte c /\ decode_value c = None.
Proof. exists 123. split; [unfold is_byte; lia | vm_compute; reflexivity]. Qed.
Print Assumptions C03_table_overread_refuted.
