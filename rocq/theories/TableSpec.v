(** Specification for C91: what a printed table looks like. *)
From Verif Require Import PyBase ContainerModel TableModel CliSpec.

(** [x] shows the text [t], centred in [w] characters, with at least two blanks on each side *)
Definition shows (w : nat) (t x : str) : Prop :=
  exists i j, x = blanks i ++ t ++ blanks j /\ 2 <= i /\ (j = i \/ j = i + 1) /\ length x = w.
(** [line] shows the texts [ts], one per column *)
Definition line_shows (ws : list nat) (ts : list str) (line : str) : Prop :=
  exists xs, line = concat xs /\ Forall2 (fun wt x => shows (fst wt) (snd wt) x) (combine ws ts) xs.
(** [t] is the value of the entry under the name *)
Definition under (e : entry) (n : str) (c : cell) : Prop :=
  exists before after, e = before ++ (n, c) :: after /\ ~ In n (map fst before).
(** the columns that are shown: of the requested names, those that every entry has, each once, in the
    order in which they are first requested *)
Definition shown_columns (t : list entry) (names cs : list str) : Prop :=
  exists every, (forall n, every n = true <-> Forall (fun e => In n (map fst e)) t) /\ distinct_in_order (filter every names) cs.
(** the cell is a text or a number *)
Definition printable (c : cell) (x : str) : Prop := c = CText x \/ c = CNumber x.
