(** * Model of views of datafiles over time (datafile/_viewers.py 145-294;
    paths.py 66-87; etc.py 87-117)

    Paths are relative to /repo/src/eprempy.  [DatafileModel] models what a view
    reads from one file; this is a model of the views that a program has asked
    for, while the files on disk change.  A path is the fully resolved path, as
    the list of its parts.  A file that is replaced or removed while it is open
    goes on giving the old contents (netCDF4 keeps it open); a file that is
    written to while it is open is not modelled. *)
From Verif Require Import PyBase ContainerModel EpremModel DatafileModel.

Definition fpath := list str.
Definition fpath_eqb (a b : fpath) : bool := list_eqb str_eqb a b.
(** what is on disk: a NetCDF file, or another file *)
Definition vdisk := list (fpath * option datafile).

(** the properties of a view, and their values *)
Inductive vprop := VArrays | VScalars | VAxes | VSizes | VUnits.
Inductive vvalue := ArraysAre (l : list (str * farray)) | ScalarsAre (l : list (str * fscalar)) | AxesAre (l : list (str * nat)) | SizesAre (l : list (str * nat)) | UnitsAre (l : list (str * str)).
(** 145-175 [View.__init__]: the hint, the open file, and the values read so far.
    A view is known by its number. *)
Record vobject := mkvobject { w_id : nat; w_hint : option str; w_viewer : option datafile;
  w_arrays : option (list (str * farray)); w_scalars : option (list (str * fscalar)); w_axes : option (list (str * nat)); w_sizes : option (list (str * nat)); w_units : option (list (str * str)) }.
Definition new_view (id : nat) (hint : option str) : vobject := mkvobject id hint None None None None None None.
Record vstate := mkvstate { on_disk : vdisk; views : list (fpath * vobject); next_view : nat }.
Definition set_view (st : vstate) (p : fpath) (v : vobject) : vstate := mkvstate (on_disk st) (dict_put fpath_eqb (views st) p v) (next_view st).

(** 264-294 [view_factory]: the path must exist; [View] has the metaclass
    [PathSet], whose instances are kept by path, without the hint *)
Definition request_view (st : vstate) (p : fpath) (hint : option str) : result nat * vstate :=
  match lookup fpath_eqb (on_disk st) p with
  | Raise _ => (Raise (OtherError "NonExistentPathError"), st)
  | Ok _ =>
      match lookup fpath_eqb (views st) p with
      | Ok v => (Ok (w_id v), st)
      | Raise _ => (Ok (next_view st), mkvstate (on_disk st) (views st ++ [(p, new_view (next_view st) hint)]) (S (next_view st)))
      end
  end.

(** 248-257 [viewer]: opened when it is first needed *)
Definition open_viewer (disk : vdisk) (p : fpath) (v : vobject) : result (datafile * vobject) :=
  match w_viewer v with
  | Some d => Ok (d, v)
  | None =>
      _ <- choose_viewer (last p []) (w_hint v) ;;
      match lookup fpath_eqb disk p with
      | Raise _ => Raise (OtherError "FileNotFoundError")
      | Ok None => Raise (OtherError "OSError")
      | Ok (Some d) => Ok (d, mkvobject (w_id v) (w_hint v) (Some d) (w_arrays v) (w_scalars v) (w_axes v) (w_sizes v) (w_units v))
      end
  end.
(** 192-232: the properties; the open file is kept even if reading from it fails *)
Definition from_viewer {A} (disk : vdisk) (p : fpath) (v : vobject) (known : option A) (read : datafile -> result A) (store : vobject -> A -> vobject) : result A * vobject :=
  match known with
  | Some x => (Ok x, v)
  | None =>
      match open_viewer disk p v with
      | Raise e => (Raise e, v)
      | Ok (d, v') => match read d with Ok x => (Ok x, store v' x) | Raise e => (Raise e, v') end
      end
  end.
Definition store_arrays v x := mkvobject (w_id v) (w_hint v) (w_viewer v) (Some x) (w_scalars v) (w_axes v) (w_sizes v) (w_units v).
Definition store_scalars v x := mkvobject (w_id v) (w_hint v) (w_viewer v) (w_arrays v) (Some x) (w_axes v) (w_sizes v) (w_units v).
Definition store_axes v x := mkvobject (w_id v) (w_hint v) (w_viewer v) (w_arrays v) (w_scalars v) (Some x) (w_sizes v) (w_units v).
Definition store_sizes v x := mkvobject (w_id v) (w_hint v) (w_viewer v) (w_arrays v) (w_scalars v) (w_axes v) (Some x) (w_units v).
Definition store_units v x := mkvobject (w_id v) (w_hint v) (w_viewer v) (w_arrays v) (w_scalars v) (w_axes v) (w_sizes v) (Some x).
Definition read_axes disk p v := from_viewer disk p v (w_axes v) view_axes store_axes.
(** 218-222 [sizes]: from the axes *)
Definition read_sizes disk p v : result (list (str * nat)) * vobject :=
  match w_sizes v with
  | Some x => (Ok x, v)
  | None => match read_axes disk p v with (Ok x, v') => (Ok x, store_sizes v' x) | (Raise e, v') => (Raise e, v') end
  end.
Definition tag {A} (f : A -> vvalue) (r : result A * vobject) : result vvalue * vobject := (match fst r with Ok x => Ok (f x) | Raise e => Raise e end, snd r).
Definition read_object (disk : vdisk) (p : fpath) (v : vobject) (k : vprop) : result vvalue * vobject :=
  match k with
  | VArrays => tag ArraysAre (from_viewer disk p v (w_arrays v) view_arrays store_arrays)
  | VScalars => tag ScalarsAre (from_viewer disk p v (w_scalars v) view_scalars store_scalars)
  | VAxes => tag AxesAre (read_axes disk p v)
  | VSizes => tag SizesAre (read_sizes disk p v)
  | VUnits => tag UnitsAre (from_viewer disk p v (w_units v) view_units store_units)
  end.
(** 177-190 [__getitem__]: a property by name (other attributes of the object are
    not modelled) *)
Definition prop_named (x : str) : result vprop :=
  if str_eqb x (s "arrays") then Ok VArrays else if str_eqb x (s "scalars") then Ok VScalars else if str_eqb x (s "axes") then Ok VAxes
  else if str_eqb x (s "sizes") then Ok VSizes else if str_eqb x (s "units") then Ok VUnits else Raise KeyError.

(** ** What happens over time: a file is written or removed, a view is asked for,
    a property of the view at a path is read *)
Inductive vevent := Written (p : fpath) (c : option datafile) | Removed (p : fpath) | Asked (p : fpath) (hint : option str) | ReadProp (p : fpath) (k : vprop).
Definition remove_file (disk : vdisk) (p : fpath) : vdisk := filter (fun e => negb (fpath_eqb (fst e) p)) disk.
Definition read_view (st : vstate) (p : fpath) (k : vprop) : result vvalue * vstate :=
  match lookup fpath_eqb (views st) p with
  | Raise e => (Raise e, st)   (* there is no view of this path *)
  | Ok v => let '(r, v') := read_object (on_disk st) p v k in (r, set_view st p v')
  end.
Definition happen (st : vstate) (e : vevent) : vstate :=
  match e with
  | Written p c => mkvstate (dict_put fpath_eqb (on_disk st) p c) (views st) (next_view st)
  | Removed p => mkvstate (remove_file (on_disk st) p) (views st) (next_view st)
  | Asked p hint => snd (request_view st p hint)
  | ReadProp p k => snd (read_view st p k)
  end.
Definition no_views (disk : vdisk) : vstate := mkvstate disk [] 0.
Definition history_of (st : vstate) (l : list vevent) : vstate := fold_left happen l st.
