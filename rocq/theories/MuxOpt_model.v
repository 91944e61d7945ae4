(** From the command line to the calls on the editor: do_mp4_mux, /repo/src/mgcli/mp4info.cpp
    3694-3796, and do_ts_mux, /repo/src/mg/media/tsinfo.cpp 638-705; the options mgcli declares,
    mp4info.cpp 4500-4563; the conversions of texts, /repo/src/mg/alxstring.h 120-134, 684-735.
    A number of which the scanf family doesn't say what it gives, and a value read outside of a
    vector, are the outcome Unspecified.  Not modelled: text output. *)
From Coq Require Import String.
From Verif Require Import Util Str_model CmdLine_model.
Local Open Scope Z_scope.

(** ** Conversions *)
Inductive res (A : Type) := Got (a : A) | Throws | Unknown.
Arguments Got {A} _. Arguments Throws {A}. Arguments Unknown {A}.
Definition bind {A B} (r : res A) (f : A -> res B) : res B := match r with Got a => f a | Throws => Throws | Unknown => Unknown end.
Definition is_digit (c : Z) : bool := (48 <=? c) && (c <=? 57).
Definition is_white (c : Z) : bool := (c =? 32) || ((9 <=? c) && (c <=? 13)).
Fixpoint drop_white (t : list Z) : list Z := match t with c :: r => if is_white c then drop_white r else t | [] => [] end.
(** the digits in front: their value and whether there are any *)
Fixpoint scan_digits (v : Z) (any : bool) (t : list Z) : Z * bool :=
  match t with c :: r => if is_digit c then scan_digits (v * 10 + (c - 48)) true r else (v, any) | [] => (v, any) end.
Definition scan_number (t : list Z) : option Z :=
  let t := drop_white t in
  let '(neg, t) := match t with 45 :: r => (true, r) | 43 :: r => (false, r) | _ => (false, t) end in
  let '(v, any) := scan_digits 0 false t in if any then Some (if neg : bool then - v else v) else None.
(** operator int64_t 692-698: scanf of SCNd64, throws if nothing was read *)
Definition int64_of (t : list Z) : res Z :=
  match scan_number t with None => Throws | Some z => if (- 2 ^ 63 <=? z) && (z <? 2 ^ 63) then Got z else Unknown end.
(** operator uint64_t 700-709: a sign is taken *)
Definition uint64_of (t : list Z) : res Z :=
  match scan_number t with None => Throws | Some z => if Z.abs z <? 2 ^ 64 then Got (z mod 2 ^ 64) else Unknown end.
(** operator bool 723-735 *)
Definition bool_of (t : list Z) : bool := eqs t (str "1") || eqs t (str "true") || eqs t (str "yes") || eqs t (str "TRUE") || eqs t (str "True").

(** ** What is called *)
Inductive act :=
| MaxDistance (z : Z) | CompositionInDistance (b : bool) | AudioTimeScale (z : Z) | VideoTimeScale (z : Z) | AacFix (b : bool) | CttsOffset (b : bool)
| Start (path : list Z) | Clip (path : list Z) (start end_ : Z) | End.
(** returned with the code, ended by an exception, or unspecified; the calls made before *)
Inductive outcome := Code (n : Z) (l : list act) | Thrown (l : list act) | Unspecified (l : list act).
Definition prepend (l : list act) (o : outcome) : outcome := match o with Code n r => Code n (l ++ r) | Thrown r => Thrown (l ++ r) | Unspecified r => Unspecified (l ++ r) end.
Fixpoint run (steps : list (res (list act))) : outcome :=
  match steps with [] => Code 0 [] | Got l :: r => prepend l (run r) | Throws :: _ => Thrown [] | Unknown :: _ => Unspecified [] end.
(** c.get_value(n, idx), converted *)
Definition value {A} (m : commands) (n : list Z) (idx : nat) (f : list Z -> res A) : res A := match get_value n idx m with Some v => f v | None => Unknown end.
(** if(c.command_specified(n)) { ... } *)
Definition option_ (m : commands) (n : list Z) (f : list Z -> res act) : res (list act) :=
  if command_specified n 0 m then bind (value m n 0 f) (fun a => Got [a]) else Got [].
(** set_stream_time_scale mp4edit.h 334-340 *)
Definition set_stream_time_scale (z : Z) (audio : bool) : act := if audio then AudioTimeScale z else VideoTimeScale z.
(** mp4edit.Add(...) 3785-3788 *)
Definition clip (m : commands) (idx : nat) : res (list act) :=
  value m (str "input") idx (fun name => bind (value m (str "starttime") idx int64_of) (fun s => bind (value m (str "endtime") idx int64_of) (fun e =>
    Got [Clip name (s mod 2 ^ 64) (e mod 2 ^ 64)]))).
Definition get_command_count (n : list Z) (m : commands) : nat := match lookup n m with Some it => length (values it) | None => 0 end.
Definition counts_differ (m : commands) : bool :=
  let cnt := get_command_count (str "input") m in
  negb (cnt =? get_command_count (str "starttime") m)%nat || negb (cnt =? get_command_count (str "endtime") m)%nat.
(** do_mp4_mux.  Both time scales are set with the default audio = true (3733, 3741) *)
Definition mp4_mux (m : commands) : outcome :=
  if counts_differ m then Code 2020 [] else
  run ([option_ m (str "maxdistance") (fun v => bind (int64_of v) (fun z => Got (MaxDistance (z mod 2 ^ 64))));
        option_ m (str "usedecodingdistance") (fun v => Got (CompositionInDistance (negb (bool_of v))));
        option_ m (str "audiotimescale") (fun v => bind (uint64_of v) (fun z => Got (set_stream_time_scale z true)));
        option_ m (str "videotimescale") (fun v => bind (uint64_of v) (fun z => Got (set_stream_time_scale z true)));
        option_ m (str "aacfix") (fun v => Got (AacFix (bool_of v)));
        option_ m (str "ctts") (fun v => Got (CttsOffset (bool_of v)));
        value m (str "output") 0 (fun v => Got [Start v])]
       ++ map (clip m) (seq 0 (get_command_count (str "input") m)) ++ [Got [End]]).
(** do_ts_mux *)
Definition ts_mux (m : commands) : outcome :=
  if counts_differ m then Code 2020 [] else
  if negb (command_specified (str "output") 0 m) then Code 2021 [] else
  run ([option_ m (str "ctts") (fun v => bind (int64_of v) (fun z => Got (CttsOffset (negb (z =? 0)))));
        value m (str "output") 0 (fun v => Got [Start v])]
       ++ map (clip m) (seq 0 (get_command_count (str "input") m)) ++ [Got [End]]).

(** ** The options of mgcli: 4502-4563 *)
Definition declared : list (list Z * (command_type * Z)) :=
  [(str "input", (type_string, 105)); (str "kind", (type_string, 107)); (str "position", (type_int, 112)); (str "xml", (type_string, 120)); (str "handler", (type_string, 104));
   (str "size", (type_int, 122)); (str "output", (type_string, 111)); (str "starttime", (type_int, 115)); (str "endtime", (type_int, 101)); (str "stream", (type_int, 0));
   (str "test", (type_string, 116)); (str "help", (type_string, 104)); (str "-help", (type_string, 0)); (str "segment", (type_int, 0)); (str "bitrate", (type_int, 98));
   (str "path", (type_string, 106)); (str "audiotimescale", (type_int, 0)); (str "videotimescale", (type_int, 0)); (str "validate", (type_bool, 118))].
Definition mgcli_options : commands :=
  fold_left (fun m d => match add (fst d) (fst (snd d)) false (snd (snd d)) m with Some m => m | None => m end) declared [].

(** * Specification vocabulary *)
(** an argument: one of C15, or -name or --name alone *)
Inductive word := Said (a : spoken) | Bare (two : bool) (name : list Z).
Definition text (w : word) : list Z := match w with Said a => render a | Bare two n => dashes two ++ n end.
(** a name which is known, or has not exactly one character *)
Definition nameable (m : commands) (n : list Z) : Prop := registered n m \/ length n <> 1%nat.
Definition acceptable (m : commands) (w : word) : Prop :=
  match w with
  | Said (Pos t) => nonul t /\ no_lead_dash t
  | Said (Colon two n v) => nonul n /\ nonul v /\ (two = false -> no_lead_dash n) /\ ~ In c_colon n /\ nameable m n
  | Said (Equal two n v) => nonul n /\ nonul v /\ (two = false -> no_lead_dash n) /\ ~ In c_colon n /\ ~ In c_colon v /\ ~ In c_eq n /\ nameable m n
  | Bare two n => nonul n /\ (two = false -> no_lead_dash n) /\ ~ In c_colon n /\ ~ In c_eq n /\ nameable m n
  end.
(** the values given to [n] by an argument; a switch is a boolean option declared as such *)
Definition gives (is_switch : list Z -> bool) (n : list Z) (w : word) : list (list Z) :=
  match w with
  | Said (Pos _) => []
  | Said (Colon _ k v) | Said (Equal _ k v) => if eqs k n then [v] else []
  | Bare _ k => if eqs k n then [if is_switch k then str "T" else []] else []
  end.
Definition switch (m : commands) (n : list Z) : bool := match lookup n m with Some it => match ctype it with type_bool => true | _ => false end | None => false end.
(** [t] is a decimal number, with or without a sign in front, of value [z] *)
Definition numeral (ds : list Z) (v : Z) : Prop := ds <> [] /\ Forall (fun c => 48 <= c <= 57) ds /\ v = fold_left (fun v c => v * 10 + (c - 48)) ds 0.
Definition number (t : list Z) (z : Z) : Prop := (exists ds, t = ds /\ numeral ds z) \/ (exists ds v, t = 45 :: ds /\ numeral ds v /\ z = - v) \/ (exists ds, t = 43 :: ds /\ numeral ds z).
Definition is64 (t : list Z) (z : Z) : Prop := number t z /\ - 2 ^ 63 <= z < 2 ^ 63.
(** settings made before the output is started *)
Definition setting (a : act) : Prop := match a with Start _ | Clip _ _ _ | End => False | _ => True end.
Definition yes : list (list Z) := [str "1"; str "true"; str "yes"; str "TRUE"; str "True"].
(** the clips named one by one *)
Definition clips (names : list (list Z)) (starts ends : list Z) : list act :=
  map (fun p : list Z * Z * Z => Clip (fst (fst p)) (snd (fst p) mod 2 ^ 64) (snd p mod 2 ^ 64)) (combine (combine names starts) ends).
(** what counts of an option given several times is the first value *)
Definition first_value (n : list Z) (m : commands) (t : list Z) : Prop := exists r, vals n m = t :: r.
(** the number options hold numbers *)
Definition readable (m : commands) : Prop :=
  (forall t, first_value (str "maxdistance") m t -> exists z, is64 t z) /\
  (forall t, first_value (str "audiotimescale") m t -> exists z, number t z /\ 0 <= z < 2 ^ 64) /\
  (forall t, first_value (str "videotimescale") m t -> exists z, number t z /\ 0 <= z < 2 ^ 64).
(** the settings made are those asked for; both time scales are taken for the audio *)
Definition sets (m : commands) (setts : list act) : Prop :=
  Forall setting setts /\
  (forall x, In (MaxDistance x) setts <-> exists t z, first_value (str "maxdistance") m t /\ is64 t z /\ x = z mod 2 ^ 64) /\
  (forall b, In (CompositionInDistance b) setts <-> exists t, first_value (str "usedecodingdistance") m t /\ (b = false <-> In t yes)) /\
  (forall x, In (AudioTimeScale x) setts <-> exists t, (first_value (str "audiotimescale") m t \/ first_value (str "videotimescale") m t) /\ number t x) /\
  (forall x, ~ In (VideoTimeScale x) setts) /\
  (forall b, In (AacFix b) setts <-> exists t, first_value (str "aacfix") m t /\ (b = true <-> In t yes)) /\
  (forall b, In (CttsOffset b) setts <-> exists t, first_value (str "ctts") m t /\ (b = true <-> In t yes)).
