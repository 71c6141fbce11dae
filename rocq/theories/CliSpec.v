(** * Vocabulary of the properties of the configuration-file command (no eprempy code) *)
From Verif Require Import PyBase ConfigSpec.
From Coq Require Import Sorted.
Local Open Scope nat_scope.

(** the names of parameters are not empty and have no blanks *)
Definition proper_name (k : str) : Prop := k <> [] /\ ~ In " "%char k.
(** a full path is a list of components that are neither empty nor '.', without slashes *)
Definition proper_path (p : list str) : Prop := Forall (fun c => c <> [] /\ c <> s "." /\ ~ In "/"%char c) p.
Definition starts_with {A} (p c : list A) : Prop := exists r, p = c ++ r.
(** [l] is the list of the different things among [all], in the order of their first use *)
Inductive distinct_in_order {A} : list A -> list A -> Prop :=
| no_things : distinct_in_order [] []
| seen_again all x l : distinct_in_order all l -> In x all -> distinct_in_order (all ++ [x]) l
| seen_first all x l : distinct_in_order all l -> ~ In x all -> distinct_in_order (all ++ [x]) (l ++ [x]).

(** what one column of the comparison displays for a parameter: the value if the file sets
    it, or the text '(default)' *)
Inductive displays (settings : list (str * str)) (value : str -> str) (key : str) : str -> Prop :=
| displays_value text : In (key, text) settings -> text <> [] -> displays settings value key (value key)
| displays_default : (forall text, In (key, text) settings -> text = []) -> displays settings value key (s "(default)").

(** ** The printed table *)
(** [line] is [text] between blanks, and the two margins differ by at most one *)
Definition centred (text line : str) : Prop :=
  exists l r, line = repeat " "%char l ++ text ++ repeat " "%char r /\ (l <= r + 1 /\ r <= l + 1).
(** [line] has the label on the left, the value on the right and at least [gap] blanks
    between *)
Definition row (gap : nat) (label value line : str) : Prop :=
  exists n, gap <= n /\ line = label ++ repeat " "%char n ++ value.
(** every group is a heading, a rule, a row for each label and an empty line *)
Definition printed_group (w gap : nat) (g : str * list (str * str)) (lines : list str) : Prop :=
  exists h rows, lines = h :: repeat "-"%char w :: rows ++ [[]] /\ centred (fst g) h /\ length h = w /\
    Forall2 (fun r line => row gap (fst r) (snd r) line /\ length line = w) (snd g) rows.
Definition printed (gap : nat) (groups : list (str * list (str * str))) (lines : list str) : Prop :=
  exists w blocks, lines = [] :: concat blocks /\ Forall2 (printed_group w gap) groups blocks.
