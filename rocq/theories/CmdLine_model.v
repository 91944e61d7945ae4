(** Model of console_command, /repo/src/mg/cmdline.h lines 380-595. *)
From Coq Require Import String.
From Verif Require Import Util Str_model.
Local Open Scope Z_scope.

(** cmdline.h 383 *)
Inductive command_type := type_string | type_int | type_bool.
(** cmdline.h 388-395; the description is left out. *)
Record item := mkitem { ctype : command_type; required : bool; short_cut : Z; values : list (list Z) }.
(** cmdline.h 397: std::map<Cstring, console_item>, as the list of its entries in
    increasing strcmp order. *)
Definition commands := list (list Z * item).

(** strcmp order (alxstring.h 869-874) *)
Fixpoint lts (a b : list Z) : bool :=
  match a, b with
  | [], [] => false
  | [], _ :: _ => true
  | _ :: _, [] => false
  | x :: a', y :: b' => if x <? y then true else if y <? x then false else lts a' b'
  end.
(** std::map::find *)
Fixpoint lookup (n : list Z) (m : commands) : option item :=
  match m with [] => None | (k, v) :: m' => if eqs k n then Some v else lookup n m' end.
(** std::map::operator[] assignment: replaces, or inserts in key order. *)
Fixpoint replace_item (n : list Z) (v : item) (m : commands) : commands :=
  match m with [] => [] | (k, w) :: m' => if eqs k n then (k, v) :: m' else (k, w) :: replace_item n v m' end.
Fixpoint insert_item (n : list Z) (v : item) (m : commands) : commands :=
  match m with
  | [] => [(n, v)]
  | (k, w) :: m' => if lts n k then (n, v) :: (k, w) :: m' else (k, w) :: insert_item n v m'
  end.
Definition store (n : list Z) (v : item) (m : commands) : commands :=
  match lookup n m with Some _ => replace_item n v m | None => insert_item n v m end.

(** cmdline.h 400-415: add(); [None] = throws "command already exist". *)
Definition add (n : list Z) (t : command_type) (req : bool) (sc : Z) (m : commands) : option commands :=
  match lookup n m with Some _ => None | None => Some (store n (mkitem t req sc []) m) end.

Definition c_dash := 45. Definition c_colon := 58. Definition c_eq := 61.

Inductive parsed := Positional | Option_ (name value : list Z) | OverRead.

(** cmdline.h 430-460: recognition of one argument. *)
Definition parse_arg (m : commands) (command : list Z) : parsed :=
  match subString command 0 1 with
  | None => OverRead
  | Some h =>
    if eqs h [c_dash] then
      let x0 := find command [c_colon] in
      let x := if x0 <? 0 then find command [c_eq] else x0 in
      match subString command 1 1 with
      | None => OverRead
      | Some h2 =>
        let ss := if eqs h2 [c_dash] then 2%nat else 1%nat in
        if x <? 0 then
          match subString command ss (length command - ss) with
          | None => OverRead
          | Some name => Option_ name
              (match lookup name m with
               | Some it => match ctype it with type_bool => str "T" | _ => [] end
               | None => [] end)
          end
        else
          let xn := Z.to_nat x in
          match subString command ss (xn - ss), subString command (xn + 1) (length command - (xn + 1)) with
          | Some name, Some value => Option_ name value
          | _, _ => OverRead
          end
      end
    else Positional
  end.

(** cmdline.h 466-481: shortcut search, in map order. *)
Fixpoint by_shortcut (s : Z) (m : commands) : option (list Z) :=
  match m with [] => None | (k, it) :: m' => if s =? short_cut it then Some k else by_shortcut s m' end.

Definition push (n v : list Z) (m : commands) : commands :=
  match lookup n m with
  | Some it => store n (mkitem (ctype it) (required it) (short_cut it) (values it ++ [v])) m
  | None => m
  end.

(** cmdline.h 462-490 *)
Definition record_option (name value : list Z) (m : commands) : commands :=
  match lookup name m with
  | Some _ => push name value m
  | None =>
    match (match name with [s] => by_shortcut s m | _ => None end) with
    | Some full => push full value m
    | None => push name value (store name (mkitem type_string false 48 []) m)
    end
  end.

(** cmdline.h 423-492: the loop over argv[1..]; [None] = read outside a buffer. *)
Fixpoint process_args (args : list (list Z)) (m : commands) : option commands :=
  match args with
  | [] => Some m
  | a :: args' =>
    match parse_arg m a with
    | OverRead => None
    | Positional => process_args args' m
    | Option_ n v => process_args args' (record_option n v m)
    end
  end.
(** cmdline.h 494-510: the first missing required parameter. *)
Fixpoint first_missing (m : commands) : option (list Z) :=
  match m with
  | [] => None
  | (k, it) :: m' => if required it && (match values it with [] => true | _ => false end) then Some k else first_missing m'
  end.
(** cmdline.h 417-511: (return value, commands). *)
Definition process (args : list (list Z)) (m : commands) : option (bool * commands) :=
  match process_args args m with
  | None => None
  | Some m' => Some (match first_missing m' with None => true | Some _ => false end, m')
  end.

(** cmdline.h 533-539: get_value. *)
Definition get_value (n : list Z) (idx : nat) (m : commands) : option (list Z) :=
  match lookup n m with Some it => nth_error (values it) idx | None => None end.
(** cmdline.h 585-594 *)
Definition command_specified (n : list Z) (idx : nat) (m : commands) : bool :=
  match lookup n m with Some it => Nat.ltb idx (length (values it)) | None => false end.

(** Specification vocabulary: well-formed arguments as a user writes them. *)
Inductive spoken :=
| Pos (text : list Z)                                  (* a word *)
| Colon (two : bool) (name value : list Z)             (* -name:value or --name:value *)
| Equal (two : bool) (name value : list Z).            (* -name=value or --name=value *)
Definition dashes (two : bool) : list Z := if two then [c_dash; c_dash] else [c_dash].
Definition render (a : spoken) : list Z :=
  match a with
  | Pos t => t
  | Colon two n v => dashes two ++ n ++ c_colon :: v
  | Equal two n v => dashes two ++ n ++ c_eq :: v
  end.
Definition no_lead_dash (name : list Z) : Prop := forall r, name <> c_dash :: r.
Definition registered (n : list Z) (m : commands) : Prop := lookup n m <> None.
(** name without ':' (nor '=' in the '=' form) nor leading dash; value without ':' in the '=' form *)
Definition well_formed (m : commands) (a : spoken) : Prop :=
  match a with
  | Pos t => nonul t /\ no_lead_dash t
  | Colon two n v => nonul n /\ nonul v /\ (two = false -> no_lead_dash n) /\ ~ In c_colon n /\ registered n m
  | Equal two n v => nonul n /\ nonul v /\ (two = false -> no_lead_dash n) /\ ~ In c_colon n /\ ~ In c_colon v /\ ~ In c_eq n /\ registered n m
  end.
(** the values given for option [n], in order *)
Definition given (n : list Z) (l : list spoken) : list (list Z) :=
  flat_map (fun a => match a with Pos _ => [] | Colon _ k v | Equal _ k v => if eqs k n then [v] else [] end) l.
Definition vals (n : list Z) (m : commands) : list (list Z) := match lookup n m with Some it => values it | None => [] end.
