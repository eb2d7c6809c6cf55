(** Names in back quotes, and the names they stand for. *)
From Verif Require Import GoBase ModelNum ModelQuery SpecRound.

(** the characters that must not be at the ends *)
Definition edge (c : ascii) : Prop := In c ["'"; "("; ")"]%char.
(** [written x n]: the text x in a statement stands for the name n: a word for itself, and a text in back quotes for
    that text *)
Inductive written : string -> string -> Prop :=
| wr_word x : name x -> written x x
| wr_back b : chars (fun c => c <> "`"%char) b -> (forall c r, b = String c r -> ~ edge c) -> (forall c r, b = (r ++ String c "")%string -> ~ edge c) ->
    written ("`" ++ b ++ "`") b.
(** the words that begin a key in CREATE TABLE *)
Definition key_word (n : string) : Prop := In n ["PRIMARY"; "KEY"; "UNIQUE"; "INDEX"; "CONSTRAINT"]%string.
(** a column of CREATE TABLE: how its name is written, its name, its type *)
Record col_text := mkColText { ct_text : string; ct_name : string; ct_type : dtype }.
Definition col_written (c : col_text) : Prop :=
  written (ct_text c) (ct_name c) /\ ~ key_word (ct_name c) /\ ~ In (ct_type c) [UnknownData; BinaryType; DoublePrecisionType; NameType].
Definition columns_text (cols : list col_text) : string := join ", " (map (fun c => ct_text c ++ " " ++ data_type_string (ct_type c)) cols)%string.
Definition columns_of (cols : list col_text) : list column := map (fun c => new_def_column (ct_name c) (new_data_def (ct_type c) (-1))) cols.
(** [enclosed x b]: the text b in quotes of one of the three kinds *)
Inductive enclosed : string -> string -> Prop :=
| en_back b : doubled "`" b -> enclosed ("`" ++ b ++ "`") b
| en_double b : doubled dquote_char b -> enclosed (String dquote_char (b ++ String dquote_char "")) b
| en_bracket b : chars (fun c => c <> "]"%char) b -> enclosed ("[" ++ b ++ "]") b.
