(** * Vocabulary of the properties of EPREM source files (no eprempy code) *)
From Verif Require Import PyBase ConfigSpec.

(** ** characters *)
Definition one_of (cs : str) (x : str) : Prop := Forall (fun c => In c cs) x.
(** the characters of words: ASCII letters, digits, the underscore, and the
    Latin-1 characters that Unicode counts as letters or numbers *)
Definition ascii_word : str := s "abcdefghijklmnopqrstuvwxyzABCDEFGHIJKLMNOPQRSTUVWXYZ0123456789_".
Definition latin_word : str :=
  map ascii_of_N ([170; 178; 179; 181; 185; 186; 188; 189; 190;
    192; 193; 194; 195; 196; 197; 198; 199; 200; 201; 202; 203; 204; 205; 206; 207; 208; 209; 210; 211; 212; 213; 214;
    216; 217; 218; 219; 220; 221; 222; 223; 224; 225; 226; 227; 228; 229; 230; 231; 232; 233; 234; 235; 236; 237; 238; 239;
    240; 241; 242; 243; 244; 245; 246; 248; 249; 250; 251; 252; 253; 254; 255]%N).
Definition word (x : str) : Prop := one_of (ascii_word ++ latin_word) x.
Definition digits_of (x : str) : Prop := one_of (s "0123456789") x.
Definition some (x : str) : Prop := x <> [].
(** [x] neither begins nor ends with a blank *)
Definition tight (x : str) : Prop := match x with [] => False | c :: _ => is_space c = false /\ is_space (last x c) = false end.

(** ** lines of a header: "#define NAME value" *)
Definition constant_name (x : str) : Prop := some x /\ one_of (s "ABCDEFGHIJKLMNOPQRSTUVWXYZ0123456789_") x.
Definition constant_text (x : str) : Prop := Forall (fun c => In c (s "-+.*/()" ++ ascii_word ++ latin_word) \/ is_space c = true) x /\ tight x.
Definition constant_line (line name value : str) : Prop :=
  exists a b c d, line = a ++ s "#define" ++ b ++ name ++ c ++ value ++ d /\
    blank a /\ (blank b /\ some b) /\ (blank c /\ some c) /\ blank d /\ constant_name name /\ constant_text value.

(** ** lines of a C file that read a parameter: target = readInt("key", a, b, c); *)
Inductive reader := ReadInt | ReadDouble | ReadString | ReadArray.
Definition reader_text (r : reader) : str :=
  match r with ReadInt => s "readInt" | ReadDouble => s "readDouble" | ReadString => s "readString" | ReadArray => s "readDoubleArray" end.
Definition target (x : str) : Prop := exists w, some w /\ word w /\ (x = w \/ x = s "config." ++ w).
(** what stands before the reader: nothing or a type cast *)
Definition cast_text (x : str) : Prop := x = [] \/ x = s "(char*)".
Definition quote : str := ["034"%char].
Definition call_line (line : str) (r : reader) (key args : str) : Prop :=
  exists a t b c k d e, line = a ++ t ++ b ++ s "=" ++ c ++ k ++ reader_text r ++ s "(" ++ quote ++ key ++ quote ++ d ++ s "," ++ args ++ s ");" ++ e /\
    blank a /\ target t /\ blank b /\ blank c /\ cast_text k /\ word key /\ blank d /\ ~ In "010"%char args /\ blank e.
(** texts between commas *)
Fixpoint commas (items : list str) : str := match items with [] => [] | [x] => x | x :: r => x ++ s "," ++ commas r end.
(** [y] is [x] without the spaces and double quotes around it *)
Definition bare (x y : str) : Prop :=
  exists a b, x = a ++ y ++ b /\ one_of (s " " ++ quote) a /\ one_of (s " " ++ quote) b /\
    match y with [] => a = [] \/ b = [] | c :: _ => ~ In c (s " " ++ quote) /\ ~ In (last y c) (s " " ++ quote) end.
(** the arguments of the readers *)
Definition attribute_names (r : reader) : list str :=
  match r with
  | ReadInt | ReadDouble => [s "defaultVal"; s "minVal"; s "maxVal"]
  | ReadString => [s "defaultVal"]
  | ReadArray => [s "defaultSize"; s "size"; s "defaultVal"; s "minVal"; s "maxVal"]
  end.
(** the line declares a parameter with these attributes *)
Definition parameter_line (line key : str) (attributes : list (str * str)) : Prop :=
  exists r items values, call_line line r key (commas items) /\ items <> [] /\ Forall (fun i => ~ In ","%char i) items /\
    Forall2 bare items values /\ attributes = (s "mode", reader_text r) :: combine (attribute_names r) values.

(** ** lines that define an array with one element: Scalar_t name[1] = {1.0}; *)
Definition element (x : str) : Prop :=
  digits_of x \/ (exists i f, digits_of i /\ some f /\ digits_of f /\ x = i ++ s "." ++ f) \/ target x.
Definition array_line (line name size value : str) : Prop :=
  exists a b c d e, line = a ++ s "Scalar_t" ++ b ++ name ++ s "[" ++ size ++ s "]" ++ c ++ s "=" ++ d ++ s "{" ++ value ++ s "};" ++ e /\
    blank a /\ blank b /\ (some name /\ word name) /\ (some size /\ digits_of size) /\ blank c /\ blank d /\ element value /\ blank e.

(** ** files *)
Definition last_declared {V} (declares : str -> str -> V -> Prop) (lines : list str) (k : str) (v : V) : Prop :=
  exists before line after, lines = before ++ line :: after /\ declares line k v /\ forall l w, In l after -> ~ declares l k w.
(** an array: its size and the text of the list *)
Definition array_declared (line name : str) (v : N * str) : Prop :=
  exists size value, array_line line name size value /\ v = (N_of_str size, s "[" ++ value ++ s "]").
(** each name where it occurs first *)
Fixpoint first_occurrences (names : list str) : list str :=
  match names with [] => [] | x :: r => x :: filter (fun y => negb (str_eqb x y)) (first_occurrences r) end.
(** the names that the lines declare, in order *)
Inductive names_declared {V} (declares : str -> str -> V -> Prop) : list str -> list str -> Prop :=
  | names_none : names_declared declares [] []
  | names_more l lines k v names : declares l k v -> names_declared declares lines names -> names_declared declares (l :: lines) (k :: names)
  | names_skip l lines names : (forall k v, ~ declares l k v) -> names_declared declares lines names -> names_declared declares (l :: lines) names.
(** the lines declare the entries of the table, in this order, among other lines *)
Inductive writes {V} (declares : str -> str -> V -> Prop) : list str -> list (str * V) -> Prop :=
  | writes_none : writes declares [] []
  | writes_more l lines k v table : declares l k v -> writes declares lines table -> writes declares (l :: lines) ((k, v) :: table)
  | writes_skip l lines table : (forall k v, ~ declares l k v) -> writes declares lines table -> writes declares (l :: lines) table.

(** ** parameters *)
(** the attributes of a parameter, once the name of an array is replaced by its text *)
Definition resolved (lines : list str) (declared attrs : list (str * str)) : Prop :=
  exists d, In (s "defaultVal", d) declared /\
    (((forall v, ~ last_declared array_declared lines d v) /\ attrs = declared) \/
     exists n v m lo hi, last_declared array_declared lines d (n, v) /\ In (s "mode", m) declared /\ In (s "minVal", lo) declared /\ In (s "maxVal", hi) declared /\
       attrs = [(s "mode", m); (s "defaultVal", v); (s "maxVal", hi); (s "minVal", lo)]).
(** a parameter without a default, or with an array as default but without limits *)
Definition incomplete (lines : list str) (declared : list (str * str)) : Prop :=
  (forall d, ~ In (s "defaultVal", d) declared) \/
  exists d n v, In (s "defaultVal", d) declared /\ last_declared array_declared lines d (n, v) /\
    ((forall x, ~ In (s "minVal", x) declared) \/ forall x, ~ In (s "maxVal", x) declared).
