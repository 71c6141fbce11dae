(** * Vocabulary of the texts of Python dictionaries (no eprempy code)

    A reader of Python's literals: texts between quotation marks, words, and
    marks.  Indentation inside braces means nothing to it. *)
From Verif Require Import PyBase.

Inductive token := KText (x : str) | KWord (w : str) | KMark (c : ascii).

Definition is_mark (c : ascii) : bool := existsb (Ascii.eqb c) (s "{}[]:,=").
Definition is_blank (c : ascii) : bool := Ascii.eqb c " " || Ascii.eqb c "010" || Ascii.eqb c "009".
Definition in_range (lo hi : ascii) (c : ascii) : bool := (N_of_ascii lo <=? N_of_ascii c)%N && (N_of_ascii c <=? N_of_ascii hi)%N.
(** names and numbers: "None", "float", "_x", "-1.5e+10" *)
Definition word_char (c : ascii) : bool :=
  in_range "a" "z" c || in_range "A" "Z" c || in_range "0" "9" c || existsb (Ascii.eqb c) (s "_.+-").
Definition written_word (w : str) : Prop := w <> [] /\ forallb word_char w = true.
Definition is_quotation (c : ascii) : bool := Ascii.eqb c "034" || Ascii.eqb c "039".
Definition hex_value (c : ascii) : option N :=
  if in_range "0" "9" c then Some (N_of_ascii c - 48)%N
  else if in_range "a" "f" c then Some (N_of_ascii c - 87)%N else None.

Inductive state := Between | InWord (w : str) | InText (q : ascii) (x : str) | Escaped (q : ascii) (x : str)
  | Hex (q : ascii) (x : str) | Hex2 (q : ascii) (x : str) (h : N).
Definition step (st : state) (c : ascii) : option (list token * state) :=
  match st with
  | Between =>
      if is_quotation c then Some ([], InText c []) else if is_blank c then Some ([], Between)
      else if is_mark c then Some ([KMark c], Between) else if word_char c then Some ([], InWord [c]) else None
  | InWord w =>
      if word_char c then Some ([], InWord (w ++ [c])) else if is_blank c then Some ([KWord w], Between)
      else if is_mark c then Some ([KWord w; KMark c], Between) else None
  | InText q x =>
      if Ascii.eqb c q then Some ([KText x], Between) else if Ascii.eqb c "092" then Some ([], Escaped q x)
      else if Ascii.eqb c "010" then None else Some ([], InText q (x ++ [c]))
  | Escaped q x =>
      if is_quotation c || Ascii.eqb c "092" then Some ([], InText q (x ++ [c]))
      else if Ascii.eqb c "n" then Some ([], InText q (x ++ ["010"%char]))
      else if Ascii.eqb c "t" then Some ([], InText q (x ++ ["009"%char]))
      else if Ascii.eqb c "r" then Some ([], InText q (x ++ ["013"%char]))
      else if Ascii.eqb c "x" then Some ([], Hex q x) else None
  | Hex q x => match hex_value c with Some h => Some ([], Hex2 q x h) | None => None end
  | Hex2 q x h => match hex_value c with Some l => Some ([], InText q (x ++ [ascii_of_N (16 * h + l)])) | None => None end
  end.
Fixpoint run (st : state) (text : str) : option (list token * state) :=
  match text with
  | [] => Some ([], st)
  | c :: rest =>
      match step st c with
      | Some (ts, st') => match run st' rest with Some (us, st'') => Some (ts ++ us, st'') | None => None end
      | None => None
      end
  end.
(** the tokens of a whole text; [None]: no Python text of literals *)
Definition tokens (text : str) : option (list token) :=
  match run Between text with
  | Some (ts, Between) => Some ts
  | Some (ts, InWord w) => Some (ts ++ [KWord w])
  | _ => None
  end.

(** ** what a dictionary of dictionaries is written as *)
Inductive literal := LText (x : str) | LWord (w : str) | LTexts (l : list str).
Definition mark (c : ascii) : token := KMark c.
Fixpoint listed (l : list str) : list token :=
  match l with [] => [] | [x] => [KText x] | x :: r => KText x :: mark "," :: listed r end.
Definition literal_tokens (v : literal) : list token :=
  match v with LText x => [KText x] | LWord w => [KWord w] | LTexts l => mark "[" :: listed l ++ [mark "]"] end.
Definition attribute_tokens (kv : str * literal) : list token :=
  KText (fst kv) :: mark ":" :: literal_tokens (snd kv) ++ [mark ","].
Definition entry_tokens (km : str * list (str * literal)) : list token :=
  KText (fst km) :: mark ":" :: mark "{" :: flat_map attribute_tokens (snd km) ++ [mark "}"; mark ","].
(** [text] assigns the dictionary [d] to [title] *)
Definition assigns (text title : str) (d : list (str * list (str * literal))) : Prop :=
  tokens text = Some (KWord title :: mark "=" :: mark "{" :: flat_map entry_tokens d ++ [mark "}"]).

(** the lines of a text, and the blanks they begin with *)
Fixpoint lines_of (text : str) : list str :=
  match text with
  | [] => [[]]
  | c :: rest => if Ascii.eqb c "010" then [] :: lines_of rest
                 else match lines_of rest with l :: ls => (c :: l) :: ls | [] => [[c]] end
  end.
Fixpoint indent_of (line : str) : nat := match line with c :: rest => if Ascii.eqb c " " then S (indent_of rest) else O | [] => O end.
