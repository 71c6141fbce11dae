(** * Vocabulary of the properties of configuration files (no eprempy code) *)
From Verif Require Import PyBase.

(** [y] is [x] without the blanks around it *)
Definition blank (x : str) : Prop := Forall (fun c => is_space c = true) x.
Definition trimmed (x y : str) : Prop :=
  exists a b, x = a ++ y ++ b /\ blank a /\ blank b /\
    match y with [] => a = [] \/ b = [] | c :: _ => is_space c = false /\ is_space (last y c) = false end.
(** the text of a line before its first comment marker *)
Definition code_of (marks : list ascii) (line code : str) : Prop :=
  exists tail, line = code ++ tail /\ (forall c, In c code -> ~ In c marks) /\ match tail with [] => True | c :: _ => In c marks end.
(** the line is empty, or a comment from its first character on *)
Definition ignored (marks : list ascii) (line : str) : Prop := match line with [] => True | c :: _ => In c marks end.
(** the line assigns [v] to [k] *)
Definition assigns (marks : list ascii) (line k v : str) : Prop :=
   exists kt vt, code_of marks line (kt ++ "="%char :: vt) /\ ~ In "="%char kt /\ ~ In "="%char vt /\ trimmed kt k /\ trimmed vt v.
(** [v] is the last value assigned to [k] *)
Definition last_assigned (marks : list ascii) (lines : list str) (k v : str) : Prop :=
  exists before line after, lines = before ++ line :: after /\ assigns marks line k v /\
    forall l w, In l after -> ~ assigns marks l k w.

(** a text file: its complete lines end with [nl], the last one may not *)
Definition newline_conventions : list str := [["010"%char]; ["013"%char; "010"%char]; ["013"%char]].
Definition text_of (nl : str) (lines : list str) (final : str) : str := concat (map (fun l => l ++ nl) lines) ++ final.
Definition one_line (l : str) : Prop := ~ In "010"%char l /\ ~ In "013"%char l.
