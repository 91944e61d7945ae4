(** Model of the index of a dynamic stream: /repo/src/mg/media/mp4dynamicinfo.h 72-140
    (DynamicBitrate), 158-492 (DynamicPoints), 916-935 (rebase), 1225-1390 (the Smooth
    Streaming renderer).  std::map<int64_t, _> is a list sorted by strictly increasing key;
    times are integers (no 64-bit wrap, no negative time looked up). *)
From Coq Require Import String.
From Verif Require Import Util Dec_spec Str_model Mpd_model.
Local Open Scope Z_scope.

(** * std::map *)
Definition zmap (A : Type) := list (Z * A).
(** m[k] = v *)
Fixpoint put {A} (k : Z) (v : A) (m : zmap A) : zmap A :=
  match m with
  | [] => [(k, v)]
  | (k', v') :: r => if k <? k' then (k, v) :: m else if k =? k' then (k, v) :: r else (k', v') :: put k v r
  end.
(** find *)
Fixpoint get {A} (k : Z) (m : zmap A) : option A :=
  match m with [] => None | (k', v) :: r => if k =? k' then Some v else get k r end.
(** lower_bound: the entries before it (last first) and from it on *)
Fixpoint lower_bound {A} (t : Z) (before : zmap A) (m : zmap A) : zmap A * zmap A :=
  match m with
  | [] => (before, [])
  | (k, v) :: r => if k <? t then lower_bound t ((k, v) :: before) r else (before, m)
  end.
(** upper_bound in a std::set, as the rest of the set *)
Fixpoint upper_bound (t : Z) (s : list Z) : list Z :=
  match s with [] => [] | x :: r => if x <=? t then upper_bound t r else s end.

(** * DynamicBitrate 78-89 *)
Definition add_path {A} (paths : zmap A) (start : Z) (path : A) : zmap A :=
  let paths := if (match paths with [] => true | _ => false end) && (0 <? start) then put 0 path paths else paths in
  match get start paths with Some _ => paths | None => put start path paths end.
Definition add_paths {A} (adds : list (Z * A)) : zmap A := fold_left (fun m a => add_path m (fst a) (snd a)) adds [].
(** 112-130; None = dereferences the end of an empty map *)
Definition get_path {A} (paths : zmap A) (t : Z) : option A :=
  let '(before, from) := lower_bound t [] paths in
  match before with
  | [] => match from with [] => None | (_, p) :: _ => Some p end
  | (_, q) :: _ => match from with
    | [] => Some q
    | (k, p) :: _ => if k =? t then Some p else Some q
    end
  end.

(** * DynamicPoints *)
Inductive outcome (A : Type) := Value (a : A) | Throws | UB. Arguments Value {A}. Arguments Throws {A}. Arguments UB {A}.
(** 235-288 *)
Definition closer (t : Z) (k : Z) (cur : Z * Z) : Z * Z :=
  let '(target, dist) := cur in
  let '(target, dist) := if (t <? k) && (k - t <? dist) then (k, k - t) else (target, dist) in
  if (k <=? t) && (t - k <? dist) then (k, t - k) else (target, dist).
Definition get_closest {A} (m : zmap A) (t : Z) : outcome Z :=
  let '(before, from) := lower_bound t [] m in
  match from with
  | [] => Throws
  | (k, _) :: after =>
    let cur := (k, k - t) in
    let '(cur, next) := match before with
      | (b, _) :: _ => (closer t b cur, Some (match after with [] => None | x :: _ => Some x end))
      | [] => (cur, match after with [] => None | [_] => Some None | _ :: x :: _ => Some (Some x) end)
      end in
    match next with
    | None => UB  (* 268-269: two steps from the only entry *)
    | Some None => Value (fst cur)
    | Some (Some (n, _)) => Value (fst (closer t n cur))
    end
  end.
(** 302-336: the original time where the segment starting at [t] ends *)
Fixpoint from_key {A} (t : Z) (m : zmap A) : zmap A := match m with [] => [] | (k, v) :: r => if k =? t then m else from_key t r end.
Fixpoint eqset (a b : list Z) : bool := match a, b with [], [] => true | x :: a', y :: b' => (x =? y) && eqset a' b' | _, _ => false end.
Definition get_end (m : zmap Z) (file_cross : list Z) (t : Z) : outcome Z :=
  match from_key t m with
  | (comp, orig) :: (k, v) :: _ =>
    (* the two iterators differ *)
    if eqset (upper_bound comp file_cross) (upper_bound k file_cross) then Value v else Value (orig + (k - comp))
  | _ => UB
  end.
(** 355-371, 477-487 *)
Definition mint {A} (m : zmap A) : Z := match m with [] => 0 | (k, _) :: _ => k end.
Definition maxt {A} (m : zmap A) : Z := match m with [] => 0 | _ => last (map fst m) 0 end.
Definition duration {A} (m : zmap A) : Z := maxt m - mint m.
(** 373-389: every key moved *)
Definition rebase {A} (off : Z) (m : zmap A) : zmap A := fold_left (fun acc p => put (fst p + off) (snd p) acc) m [].
(** 429-475: add_point calls: start, duration, original time *)
Record point := mkpoint { p_time : Z; p_dur : Z; p_orig : Z }.
Fixpoint render_from (t te : Z) (m : zmap Z) : list point :=
  match m with [] => [] | (k, v) :: r => mkpoint t (k - t) te :: render_from k v r end.
(** None: dereferences the first entry of an empty map *)
Definition render (m : zmap Z) : option (list point) :=
  match m with [] => None | (k, v) :: r => Some (render_from k v r) end.
(** 916-935: all the streams, by the least start when it is negative *)
Definition least_start {A} (streams : list (zmap A)) : Z := fold_left (fun a m => if mint m <? a then mint m else a) streams (2 ^ 63 - 1).
Definition rebase_all {A} (streams : list (zmap A)) : list (zmap A) :=
  let m := least_start streams in if m <? 0 then map (rebase (m * -1)) streams else streams.

(** * a whole index: 158-219 *)
Definition CROSS_POINT_TIME : Z := - 2 ^ 63.
Record cross := mkcross { c_time : Z; c_orig : Z; c_time2 : Z; c_orig2 : Z }.
Record index := mkindex { i_points : zmap Z; i_cross : zmap cross; i_files : list Z }.
(** std::set::insert *)
Fixpoint set_insert (x : Z) (s : list Z) : list Z :=
  match s with [] => [x] | y :: r => if x <? y then x :: s else if x =? y then s else y :: set_insert x r end.
(** 171-191: Add, AddFileCross, AddCross *)
Inductive index_op := Add (t orig : Z) | AddFile (t : Z) | AddCross (t orig t2 orig2 : Z).
Definition index_step (i : index) (o : index_op) : index :=
  match o with
  | Add t orig => mkindex (put t orig (i_points i)) (i_cross i) (i_files i)
  | AddFile t => mkindex (i_points i) (i_cross i) (set_insert t (i_files i))
  | AddCross t c t2 c2 => mkindex (put t CROSS_POINT_TIME (i_points i)) (put t (mkcross t c t2 c2) (i_cross i)) (i_files i)
  end.
Definition build (ops : list index_op) : index := fold_left index_step ops (mkindex [] [] []).
(** 373-427: the times inside a cross point stay as they are (416) *)
Definition index_rebase (off : Z) (i : index) : index :=
  mkindex (rebase off (i_points i)) (rebase off (i_cross i)) (fold_left (fun acc x => set_insert (x + off) acc) (i_files i) []).
Definition index_end (i : index) (t : Z) : outcome Z := get_end (i_points i) (i_files i) t.

(** * the Smooth Streaming manifest: 1331-1348, 1373-1376 the <c> elements of a stream (their
    content left out), 1258 the number announced *)
Definition c_text (first : bool) (t d : Z) : list Z :=
  str "<c d=""" ++ dec d ++ (if first then str """ t=""" ++ dec t else []) ++ str """></c>" ++ [13; 10].
Definition chunks_text (pts : list point) : list Z :=
  match pts with [] => [] | p :: r => c_text true (p_time p) (p_dur p) ++ flat_map (fun q => c_text false (p_time q) (p_dur q)) r end.
Definition chunks_announced (m : zmap Z) : Z := Z.of_nat (length m).

(** * Specification vocabulary *)
Fixpoint sorted {A} (m : zmap A) : Prop :=
  match m with [] => True | (k, _) :: r => Forall (fun p => k < fst p) r /\ sorted r end.
Definition has_key {A} (m : zmap A) (k : Z) : Prop := In k (map fst m).
(** segments that follow each other from [a] to [b] *)
Fixpoint contiguous (a b : Z) (l : list (Z * Z)) : Prop :=
  match l with [] => a = b | (t, d) :: r => t = a /\ 0 < d /\ contiguous (t + d) b r end.
(** what was last added at [t] *)
Fixpoint last_added (t : Z) (ops : list index_op) : option Z :=
  match ops with
  | [] => None
  | o :: r => match last_added t r with
    | Some v => Some v
    | None => match o with
      | Add t' v => if t' =? t then Some v else None
      | AddCross t' _ _ _ => if t' =? t then Some CROSS_POINT_TIME else None
      | AddFile _ => None
      end
    end
  end.
Definition added (t : Z) (ops : list index_op) : Prop := last_added t ops <> None.
(** [b] follows [a] in the index *)
Definition next_point (a b : Z) (ops : list index_op) : Prop :=
  added a ops /\ added b ops /\ a < b /\ forall k, added k ops -> k <= a \/ b <= k.
(** a file starts in (a, b] *)
Definition file_between (a b : Z) (ops : list index_op) : Prop := exists x, In (AddFile x) ops /\ a < x <= b.
(** every time of an operation moved *)
Definition shift_op (off : Z) (o : index_op) : index_op :=
  match o with
  | Add t v => Add (t + off) v
  | AddFile t => AddFile (t + off)
  | AddCross t c t2 c2 => AddCross (t + off) c (t2 + off) c2
  end.
(** a <c> element: duration, start if given; the segments they stand for *)
Definition read_c (l : list Z) : option (Z * option Z * list Z) :=
  obind (strip (str "<c d=""") l) (fun l => obind (number l) (fun '(d, l) =>
  match strip (str """ t=""") l with
  | Some l => obind (number l) (fun '(t, l) => obind (strip (str """></c>" ++ [13; 10]) l) (fun l => Some (d, Some t, l)))
  | None => obind (strip (str """></c>" ++ [13; 10]) l) (fun l => Some (d, None, l))
  end)).
Fixpoint read_chunks (fuel : nat) (prev_end : Z) (l : list Z) : option (list (Z * Z)) :=
  match l with [] => Some [] | _ =>
    match fuel with O => None | S k => obind (read_c l) (fun '(d, t, l) =>
      let t := match t with Some t => t | None => prev_end end in
      obind (read_chunks k (t + d) l) (fun r => Some ((t, d) :: r))) end
  end.
Definition segs (pts : list point) : list (Z * Z) := map (fun p => (p_time p, p_dur p)) pts.
(** the starts of the files: as added, the first one also from 0 *)
Definition file_starts {A} (adds : list (Z * A)) : list (Z * A) :=
  match adds with (s, p) :: _ => if 0 <? s then (0, p) :: adds else adds | [] => [] end.
