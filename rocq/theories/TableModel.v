(** Model of the printed table: container.py 530-574 [Table.show], [Table.keys].
    Source: /repo/src/eprempy/container.py. *)
From Verif Require Import PyBase ContainerModel.

(** What a cell holds: a text, a number (an [int] or a [float], given by the text that
    [str] makes of it), a truth value, or an object without a format of its own
    ([None], a list, ...; its text matters for the width only). *)
Inductive cell := CText (t : str) | CNumber (t : str) | CBool (b : bool) | CObject (t : str).
(** [str(value)] *)
Definition cell_str (c : cell) : str :=
  match c with CText t | CNumber t | CObject t => t | CBool true => s "True" | CBool false => s "False" end.
(** the text that [format(value, '^n')] centres: [object.__format__] takes no
    specification; [bool] inherits that of [int] *)
Definition cell_format (c : cell) : result str :=
  match c with
  | CText t | CNumber t => Ok t
  | CBool true => Ok (s "1")
  | CBool false => Ok (s "0")
  | CObject _ => Raise TypeError
  end.
Definition blanks (n : nat) : str := repeat " "%char n.
(** [format(text, '^n')] *)
Definition centre (n : nat) (t : str) : str :=
  let p := n - length t in blanks (p / 2) ++ t ++ blanks (p - p / 2).

Definition entry := @row cell.
(** [entry[name]] and [Table.keys] (568-574) are [row_get] and [is_common] of ContainerModel *)

(** 532-537: the columns of the names that are common, each once *)
Fixpoint columns_of (t : list entry) (seen : list str) (names : list str) : result (list str) :=
  match names with
  | [] => Ok []
  | n :: names' =>
      c <- is_common t n ;;
      if c && negb (mem str_eqb n seen)
      then r <- columns_of t (n :: seen) names' ;; Ok (n :: r)
      else columns_of t seen names'
  end.
(** 542-545: the width of a column *)
Definition width (t : list entry) (n : str) : nat :=
  fold_left (fun w e => match row_get e n with Ok c => Nat.max w (length (cell_str c)) | Raise _ => w end) t (length n).

(** 530-566 [show]: the printed lines *)
Definition show (t : list entry) (names : list str) : result (list str) :=
  cs <- columns_of t [] names ;;
  let w n := 2 * 2 + width t n in
  let headers := map (fun n => centre (w n) n) cs in
  let lines := map (fun n => centre (w n) (repeat "-"%char (length n))) cs in
  rows <- mapM (fun e => mapM (fun n => c <- row_get e n ;; x <- cell_format c ;; Ok (centre (w n) x)) cs) t ;;
  Ok (match cs with
      | [] => []
      | _ => concat headers :: concat lines :: map (@concat ascii) rows
      end).
