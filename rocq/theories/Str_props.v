(** Properties C13 (split / replace), C14 (hex text), C46 (sub-string). *)
From Coq Require Import String.
From Verif Require Import Util Str_model Str_proofs.
Local Open Scope Z_scope.

(** C13: tokens joined by the separator give the text back, no token contains the
    separator, and every separator consumed is the leftmost one. *)
Theorem C13_split_join : forall s sep, sep <> [] ->
  exists ts, split s sep = Some ts /\ ts <> [] /\ join sep ts = s
   /\ (forall t i, In t ts -> ~ occurs sep t i) /\ leftmost sep ts.
Proof.
  intros s sep H. destruct (split_ok s sep H) as (ts & E & A & B & C). exists ts.
  split; [auto|]. split; [auto|]. split; [auto|]. split; [auto|]. exact (split_leftmost _ _ _ _ H E).
Qed.
Print Assumptions C13_split_join.
Example C13_nonvacuous : split (str "a, b,, c,") (str ", ") = Some [str "a"; str "b,"; str "c,"].
Proof. reflexivity. Qed.

(** C13: replace(str, in, out) puts [in] where [out] was: splitting the source on
    [out] and joining with [in]; without occurrence the text is unchanged. *)
Theorem C13_replace : forall s new old, old <> [] ->
  exists ts, split s old = Some ts /\ join old ts = s /\ replace s new old = Some (join new ts)
  /\ ((forall i, ~ occurs old s i) -> replace s new old = Some s).
Proof.
  intros s new old H. destruct (split_ok s old H) as (ts & E & A & B & C). exists ts.
  split; [auto|]. split; [auto|]. unfold replace. rewrite E. split; [reflexivity|].
  intros HN. f_equal. destruct ts as [|t [|t' ts]]; [congruence|cbn in *; congruence|].
  exfalso. apply (HN (length t)). exists t, (t' ++ flat_map (fun x => old ++ x) ts). split; [|reflexivity].
  rewrite <- B at 1. cbn. rewrite <- app_assoc. reflexivity.
Qed.
Print Assumptions C13_replace.
Example C13_replace_nonvacuous : replace (str "/a/b/") (str "\\") (str "/") = Some (str "\\a\\b\\").
Proof. reflexivity. Qed.

(** C13 refuted for the empty separator: never terminates. *)
Theorem C13_empty_separator_refuted : forall s rounds, split_loop rounds s [] = None.
Proof. intros s rounds. apply split_empty_sep. Qed.
Print Assumptions C13_empty_separator_refuted.

(** C14: hex text of any bytes, inside any surrounding text, extracts to the bytes. *)
Theorem C14_hex_roundtrip : forall pre bs post, bytes bs -> nonul pre -> nonul post ->
  extract_binary_hex (append_hex_buffer pre bs ++ post) (length bs) (length pre) = Some bs
  /\ length (append_hex_buffer pre bs) = (length pre + 2 * length bs)%nat.
Proof.
  intros pre bs post H Hp Hq. rewrite append_hex_eq by exact H. rewrite <- app_assoc.
  split; [apply extract_at; auto|]. rewrite app_length, hex_length. reflexivity.
Qed.
Print Assumptions C14_hex_roundtrip.
Example C14_nonvacuous : append_hex_buffer (str "0x") [0; 15; 160; 255] = str "0x000FA0FF"
  /\ extract_binary_hex (str "0x000fA0Ff") 4 2 = Some [0; 15; 160; 255].
Proof. split; reflexivity. Qed.

(** C46: a sub-string inside the text (or one past it) is exactly that slice; from
    offset 0 an over-long request is clipped to the text. *)
Theorem C46_substring : forall s b n, nonul s ->
  ((b + n <= S (length s))%nat -> subString s b n = Some (firstn n (skipn b s))) /\
  ((length s < n)%nat -> subString s 0 n = Some s).
Proof. intros s b n H. split; intros; [apply subString_in|apply subString_zero]; auto. Qed.
Print Assumptions C46_substring.
(** C46 refuted: any other start with an over-long request reads outside the buffer
    instead of being clipped. *)
Theorem C46_substring_refuted : forall s b n, (0 < b <= S (length s))%nat -> (S (length s) < b + n)%nat ->
  subString s b n = None.
Proof. exact subString_over. Qed.
Print Assumptions C46_substring_refuted.
Example C46_nonvacuous : subString (str "hello") 1 3 = Some (str "ell") /\ subString (str "hello") 3 4 = None.
Proof. split; reflexivity. Qed.
