(** Model of how files become a presentation: CMP4DynamicInfo::begin_processing,
    /repo/src/mg/media/mp4dynamicinfo.h 984-1131, publish_segmented_composition(_cross) 964-981,
    end_processing 1169-1183 and End 1185-1202 with DynamicStream::AddBitRate 538-545, get_bit_rate
    597-600, get_current_end 575-583 and DynamicBitrate::Add 78-89.  One stream; the others are
    handled alike and apart from it, and a stream which is not there is skipped (1000, 1097).
    None: an exception, which ends the publishing. *)
From Verif Require Import Util Points_model Pres_model Smooth_model.
Local Open Scope Z_scope.

(** one file of a group, with its bit rates (dynamic_item, mp4dynamic.h); whether it can be opened
    and parsed (1033-1037) and the private data, width and height its stream of a number gives
    (1045-1072); None: 1046, 1049 throw *)
Record item := mkItem { it_rate : Z; it_audio : Z; it_path : list Z; it_opens : bool; it_visual : Z -> option (list Z * Z * Z) }.
(** DynamicBitrate(Video) 72-146 *)
Record bitrate := mkBr { b_private : list Z; b_width : Z; b_height : Z; b_paths : zmap (list Z) }.
(** DynamicStream(Audio, Video) 496-771; [f_rates] is _bitrates: get_bit_rate 599 adds a null
    pointer for a rate which is not there; [f_private], [f_width], [f_height] from
    video_private_data 1133-1144 *)
Record fstrm := mkFs { f_name : list Z; f_audio : bool; f_id : Z; f_sampling : Z; f_channels : Z; f_private : list Z; f_width : Z; f_height : Z;
  f_rates : zmap (option bitrate); f_index : index; f_end : Z }.
Definition with_rates (s : fstrm) (m : zmap (option bitrate)) : fstrm := mkFs (f_name s) (f_audio s) (f_id s) (f_sampling s) (f_channels s) (f_private s) (f_width s) (f_height s) m (f_index s) (f_end s).
Definition with_index (s : fstrm) (i : index) : fstrm := mkFs (f_name s) (f_audio s) (f_id s) (f_sampling s) (f_channels s) (f_private s) (f_width s) (f_height s) (f_rates s) i (f_end s).
Definition with_end (s : fstrm) (e : Z) : fstrm := mkFs (f_name s) (f_audio s) (f_id s) (f_sampling s) (f_channels s) (f_private s) (f_width s) (f_height s) (f_rates s) (f_index s) e.
(** 996-1006, 1093-1104 *)
Definition rate_of (audio : bool) (it : item) : Z := if audio then it_audio it else it_rate it.
(** 994-1081: the items after the first *)
Definition add_rate (s : fstrm) (it : item) : option fstrm :=
  if it_opens it then
    if f_audio s then Some s
    else match it_visual it (f_id s) with
      | Some (d, w, h) => Some (with_rates s (put (it_rate it) (Some (mkBr d w h [])) (f_rates s)))
      | None => None
      end
  else None.
Fixpoint add_rest (s : fstrm) (l : list item) : option fstrm :=
  match l with [] => Some s | it :: l => match add_rate s it with Some s => add_rest s l | None => None end end.
Definition add_rates (s : fstrm) (l : list item) : option fstrm :=
  match l with
  | [] => Some s
  | it :: l => add_rest (with_rates s (put (rate_of (f_audio s) it) (Some (mkBr (f_private s) (f_width s) (f_height s) [])) (f_rates s))) l
  end.
(** 576-583 *)
Definition current_end (s : fstrm) : Z := if f_end s <? maxt (i_points (f_index s)) then maxt (i_points (f_index s)) else f_end s.
(** 1091-1127 *)
Definition add_file (s : fstrm) (it : item) : option fstrm :=
  match get (rate_of (f_audio s) it) (f_rates s) with
  | Some (Some b) => Some (with_rates s (put (rate_of (f_audio s) it) (Some (mkBr (b_private b) (b_width b) (b_height b) (add_path (b_paths b) (current_end s) (it_path it)))) (f_rates s)))
  | _ => None
  end.
Fixpoint add_files (s : fstrm) (l : list item) : option fstrm :=
  match l with [] => Some s | it :: l => match add_file s it with Some s => add_files s l | None => None end end.
Definition add_group (s : fstrm) (l : list item) : option fstrm :=
  match l with
  | [] => Some s
  | it :: l => match add_file s it with Some s => add_files (with_index s (index_step (f_index s) (AddFile (current_end s)))) l | None => None end
  end.
(** begin_processing 984-1131; [first]: _bit_rates is not set yet *)
Definition begin_processing (first : bool) (s : fstrm) (l : list item) : option fstrm :=
  match (if first then add_rates s l else Some s) with Some s => add_group s l | None => None end.
(** a group of files: the same content in several bit rates, the points published from it and the
    end of the stream after it *)
Record group := mkGroup { g_items : list item; g_points : list index_op; g_end : Z }.
Definition add_points (s : fstrm) (g : group) : fstrm := with_end (with_index s (fold_left index_step (g_points g) (f_index s))) (g_end g).
Fixpoint fill (first : bool) (s : fstrm) (gs : list group) : option fstrm :=
  match gs with [] => Some s | g :: gs => match begin_processing first s (g_items g) with Some s => fill false (add_points s g) gs | None => None end end.
(** End 1191-1201 *)
Definition close (s : fstrm) (stop composition : Z) : fstrm := with_index s (index_step (f_index s) (Add stop composition)).
(** what the renderers see of it; a null bit rate is used (726, 759) *)
Definition rep_of (x : Z * option bitrate) : option (rep * zmap (list Z)) := match x with (r, Some b) => Some (mkRep r (b_width b) (b_height b) (b_private b), b_paths b) | (_, None) => None end.
Definition shown_as (s : fstrm) : option sm_strm :=
  match all_some (map rep_of (f_rates s)) with
  | Some l => Some (mkSm (mkStrm (f_name s) (f_audio s) (f_id s) (f_sampling s) (map fst l) (i_points (f_index s))) (f_channels s) 16 (map snd l) (i_cross (f_index s)))
  | None => None
  end.

(** * Specification vocabulary *)
(** a stream as it is declared *)
Definition fresh (s : fstrm) : Prop := f_rates s = [] /\ f_index s = mkindex [] [] [] /\ f_end s = 0.
(** the file of a group with a bit rate *)
Definition file_of (audio : bool) (r : Z) (l : list item) : option item := List.find (fun it => (if audio then it_audio it else it_rate it) =? r) l.
(** the time of a published point *)
Definition op_time (o : index_op) : Z := match o with Add t _ => t | AddFile t => t | AddCross t _ _ _ => t end.
Definition is_point (o : index_op) : Prop := match o with AddFile _ => False | Add _ orig => orig <> - 2 ^ 63 | AddCross _ _ _ _ => True end.
(** every group ends after what was published from it and after the group before *)
Fixpoint in_order (start : Z) (gs : list group) : Prop :=
  match gs with [] => True | g :: gs => start < g_end g /\ Forall (fun o => is_point o /\ op_time o < g_end g) (g_points g) /\ in_order (g_end g) gs end.
(** the group a time is in: the first which ends after it, the last one after all *)
Fixpoint group_at (t : Z) (gs : list group) : option group :=
  match gs with [] => None | [g] => Some g | g :: gs => if t <? g_end g then Some g else group_at t gs end.
