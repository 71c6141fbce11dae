(** What the properties of run logs and listings say, without the code. *)
From Verif Require Import PyBase ContainerModel FsModel ProjectModel ProjectSpec RunLogModel.

(** The log file is readable and can be written: its directory exists, and the
    process is not killed during the next two changes of the disk. *)
Definition usable (w : world) : Prop :=
  readable w /\ is_dir (w_fs w) (parent (w_log w)) = true /\ 2 <= w_steps w.
(** Nothing but the log file differs. *)
Definition only_the_log (w w' : world) : Prop :=
  w_root w' = w_root w /\ w_branches w' = w_branches w /\ w_base w' = w_base w /\ w_log w' = w_log w /\ w_attrs w' = w_attrs w /\
  forall z, z <> w_log w -> fs_get (w_fs w') z = fs_get (w_fs w) z.
(** The records of the two logs agree but for those named. *)
Definition same_records_but (w w' : world) (except : list str) : Prop :=
  forall k, ~ In k except -> record_of w' k = record_of w k.
(** The attribute of a record *)
Definition attribute (r : list (str * json)) (key : str) : option json :=
  match find (fun e => str_eqb (fst e) key) r with Some e => Some (snd e) | None => None end.
(** [new] is given with values that can be written as [j] *)
Definition written_as (new : list (str * given)) (j : list (str * json)) : Prop :=
  new = map (fun e => (fst e, Writable (snd e))) j.
Definition has_unwritable (new : list (str * given)) : Prop := exists k, In (k, Unwritable) new.

(** What can be asked of a log. *)
Inductive log_request :=
| LCreate (key : str) (mapping : list (list (str * given))) (items : list (str * given))
| LAppend (target key : str) (value : given)
| LMove (old new : str)
| LRemove (target : str)
| LLoad (have_yaml : bool) (yaml : content -> result json) (key : str) (source : path) (filetype : option str).
Definition ask (r : log_request) : M unit :=
  match r with
  | LCreate k m i => log_create_any k m i
  | LAppend t k v => log_append_any t k v
  | LMove a b => log_mv a b
  | LRemove t => log_rm t
  | LLoad h y k p t => log_load_file h y k p t
  end.
Definition all_given_writable (r : log_request) : Prop :=
  match r with
  | LCreate _ m i => ~ has_unwritable i /\ Forall (fun x => ~ has_unwritable x) m
  | LAppend _ _ v => v <> Unwritable
  | _ => True
  end.
