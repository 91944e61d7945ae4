(** Property C15: command-line option syntax. *)
From Coq Require Import String.
From Verif Require Import Util Str_model Str_proofs CmdLine_model CmdLine_proofs.
Local Open Scope Z_scope.

(** One argument in a documented form is recognised with exactly its name and value. *)
Theorem C15_recognised : forall m a, well_formed m a -> parse_arg m (render a) =
  match a with Pos _ => Positional | Colon _ n v | Equal _ n v => Option_ n v end.
Proof. exact parse_spoken. Qed.
Print Assumptions C15_recognised.

(** A whole command line over registered options: the values of every option are
    those given, in order, and the call succeeds exactly when every required option
    has a value. *)
Theorem C15_process : forall l m, NoDup (map fst m) -> (forall a, In a l -> well_formed m a) ->
  exists ok m', process (map render l) m = Some (ok, m') /\
   (forall n, registered n m -> vals n m' = vals n m ++ given n l) /\
   (ok = true <-> forall n it, lookup n m = Some it -> required it = true -> vals n m ++ given n l <> []).
Proof. exact process_ok. Qed.
Print Assumptions C15_process.

(** A bare -name is recorded with value T for a boolean option and with an empty value otherwise. *)
Theorem C15_flag : forall m two name, nonul name -> (two = false -> no_lead_dash name) -> ~ In c_colon name -> ~ In c_eq name ->
  parse_arg m (dashes two ++ name) = Option_ name
    (match lookup name m with Some it => match ctype it with type_bool => str "T" | _ => [] end | None => [] end).
Proof. exact parse_flag. Qed.
Print Assumptions C15_flag.

(** No argument makes the parser read outside the argument's text. *)
Theorem C15_memory_safe : forall args m, Forall nonul args -> process args m <> None.
Proof. exact process_safe. Qed.
Print Assumptions C15_memory_safe.

Example C15_nonvacuous :
  let m := [(str "in", mkitem type_string true 105 []); (str "v", mkitem type_bool false 0 [])] in
  process [str "x"; str "--in:C:/a=b"; str "-v"; str "-i=q"; str "-zz=1"] m
  = Some (true, [(str "in", mkitem type_string true 105 [str "C:/a=b"; str "q"]); (str "v", mkitem type_bool false 0 [str "T"]); (str "zz", mkitem type_string false 48 [str "1"])]).
Proof. reflexivity. Qed.
Example C15_nonvacuous_hyp : forall m, registered (str "in") m -> well_formed m (Equal true (str "in") (str "a/b")).
Proof.
  intros m H. cbn. repeat split; try exact H; try (repeat constructor; lia); try discriminate;
  cbn; unfold c_colon, c_eq; intuition; discriminate.
Qed.

(** Refuted: in the = form, a value containing ':' is always cut at the ':' and
    attributed to a wrong option name. *)
Theorem C15_equal_colon_refuted : forall m two name v1 v2,
  nonul name -> nonul v1 -> nonul v2 -> (two = false -> no_lead_dash name) ->
  ~ In c_colon name -> ~ In c_colon v1 ->
  parse_arg m (render (Equal two name (v1 ++ c_colon :: v2))) = Option_ (name ++ c_eq :: v1) v2.
Proof. exact parse_eq_colon. Qed.
Print Assumptions C15_equal_colon_refuted.
Example C15_refuted_case : parse_arg [] (str "-o=C:/x") = Option_ (str "o=C") (str "/x").
Proof. reflexivity. Qed.
