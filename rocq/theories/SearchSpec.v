(** Specification for C90: where a file is searched for. *)
From Verif Require Import PyBase FsModel SearchModel.

Section Spec.
Variables (f : fs) (cwd : path).
(** the directory that a text names: absolute, or below the current one *)
Definition named (text : str) : path := if absolute text then components text else cwd ++ components text.
Definition is_there (p : path) : Prop := fs_get f p <> None.
Definition directory (p : path) : Prop := fs_get f p = Some Dir.
(** [d] holds the file: [d] is a directory, and the file (given relative to
    it, or absolutely) exists *)
Definition target (d : path) (file : str) : path := if absolute file then components file else d ++ components file.
Definition holds_file (d : path) (file : str) : Prop := directory d /\ is_there (target d file).
(** the places that are looked at, in order: those given, then the current directory *)
Definition places (dirs : list str) : list path := map named dirs ++ [cwd].
End Spec.
